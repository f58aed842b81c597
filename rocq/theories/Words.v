(** * Keywords as names: which words are reserved *)
From Coq Require Import String Ascii NArith Arith Bool List Lia.
From Verif Require Import Nom Lex Ast Grammar Spec LexFacts NumFacts TokFacts RunFacts Shapes TermFacts Api ApiFacts LexProps
  Tok TokRun TokSound TokComplete TokMembers Shows Exact Print.
Import ListNotations.
Open Scope list_scope.

(** The printer without underscores: names are escaped only where some words are not free. *)
Definition plain (x : gtok) : list tok :=
  match x with
  | GId [] n => [TName false n]
  | _ => canon x
  end.
Definition print_plain (defs : Definitions) : text := layout (flat_map plain (show_Definitions defs)).

Lemma plain_Conc g : Conc g (flat_map plain g) [].
Proof.
  induction g as [|x g IH]; [constructor|].
  destruct x as [| |[|b bs] n| | | | | |]; cbn; constructor; auto.
Qed.
Lemma plain_valid g : Forall fixed g -> Forall lexical g -> Forall valid_tok (flat_map plain g).
Proof.
  intros H H'. induction H as [|x g Hx Hg IH]; cbn; [constructor|]. inversion H'; subst. apply Forall_app. split; auto.
  destruct x as [| |[|b bs] n| | | | | |]; cbn; constructor; cbn; auto.
Qed.
Theorem parse_print_plain defs : wf_Definitions defs -> wf_lexemes defs -> parse (print_plain defs) = Parsed defs.
Proof.
  intros Hw Hl. apply parse_complete with (ts := flat_map plain (show_Definitions defs)); auto.
  - exists [], (print_plain defs). repeat split; auto; [constructor|]. apply layout_Lay, plain_valid; auto using show_fixed.
  - apply plain_Conc.
Qed.

(** The text with the word [n] in place of every [@]. *)
Definition fill (template : string) (n : text) : text := flat_map (fun c => if N.eqb c 64 then n else [c]) (str template).

(** Every place for a name that does not directly follow a type ending with [long] and is not a type itself. *)
Definition all_places : string :=
  "[ @ , @ = @ , @ = ( @ , @ ) , @ = * , @ = @ ( DOMString @ ) ] interface @ : @ { const boolean @ = true ; attribute DOMString @ ; undefined @ ( DOMString @ , optional boolean @ = false , any ... @ ) ; } ; interface mixin @ { readonly attribute DOMString @ ; } ; namespace @ { undefined @ ( ) ; } ; callback interface @ { } ; callback @ = undefined ( ) ; dictionary @ : @ { required DOMString @ ; } ; partial interface @ { } ; partial interface mixin @ { } ; partial namespace @ { } ; partial dictionary @ { } ; enum @ { ""x"" } ; typedef DOMString @ ; _A includes @ ; _A implements @ ;"%string.
Definition any_type : Type_ := Type_Single SingleType_Any.
Definition dom : Type_ := Type_Single (SingleType_NonAny (NonAnyType_DOMString (mkMayBeNull tt None))).
Definition bool_ : Type_ := Type_Single (SingleType_NonAny (NonAnyType_Boolean (mkMayBeNull tt None))).
Definition no_attr (t : Type_) : AttributedType := mkAttributedType None t.
Definition arg (n : text) : Argument := Argument_Single (mkSingleArgument None None (no_attr dom) n None).
Definition all_named (n : text) : Definitions :=
  [Definition_Interface {| Interface_attributes := Some [ExtendedAttribute_NoArgs n; ExtendedAttribute_Ident {| EAIdent_lhs_identifier := n; EAIdent_rhs := IdentifierOrString_Identifier n |}; ExtendedAttribute_IdentList {| EAIdentList_identifier := n; EAIdentList_list := [n; n] |}; ExtendedAttribute_Wildcard {| EAWildCard_lhs_identifier := n |}; ExtendedAttribute_NamedArgList (mkExtendedAttributeNamedArgList n n [arg n])]; Interface_identifier := n; Interface_inheritance := Some {| Inheritance_identifier := n |};
    Interface_members := [InterfaceMember_Const {| ConstMember_attributes := None; ConstMember_const_type := ConstType_Boolean (mkMayBeNull tt None); ConstMember_identifier := n; ConstMember_const_value := ConstValue_Boolean true |};
      InterfaceMember_Attribute {| AIM_attributes := None; AIM_modifier := None; AIM_readonly := None; AIM_type_ := no_attr dom; AIM_identifier := n |};
      InterfaceMember_Operation {| OIM_attributes := None; OIM_modifier := None; OIM_special := None; OIM_return_type := ReturnType_Undefined; OIM_identifier := Some n; OIM_args := [arg n; Argument_Single (mkSingleArgument None (Some tt) (no_attr bool_) n (Some (DefaultValue_Boolean false))); Argument_Variadic (mkVariadicArgument None any_type n)] |}] |};
   Definition_InterfaceMixin {| InterfaceMixin_attributes := None; InterfaceMixin_identifier := n; InterfaceMixin_members := [MixinMember_Attribute {| AMM_attributes := None; AMM_stringifier := None; AMM_readonly := Some tt; AMM_type_ := no_attr dom; AMM_identifier := n |}] |};
   Definition_Namespace {| Namespace_attributes := None; Namespace_identifier := n; Namespace_members := [NamespaceMember_Operation {| ONM_attributes := None; ONM_return_type := ReturnType_Undefined; ONM_identifier := Some n; ONM_args := [] |}] |};
   Definition_CallbackInterface {| CallbackInterface_attributes := None; CallbackInterface_identifier := n; CallbackInterface_inheritance := None; CallbackInterface_members := [] |};
   Definition_Callback {| Callback_attributes := None; Callback_identifier := n; Callback_return_type := ReturnType_Undefined; Callback_arguments := [] |};
   Definition_Dictionary {| Dictionary_attributes := None; Dictionary_identifier := n; Dictionary_inheritance := Some {| Inheritance_identifier := n |}; Dictionary_members := [{| DM_attributes := None; DM_required := Some tt; DM_type_ := dom; DM_identifier := n; DM_default := None |}] |};
   Definition_PartialInterface {| PartialInterface_attributes := None; PartialInterface_identifier := n; PartialInterface_members := [] |};
   Definition_PartialInterfaceMixin {| PartialInterfaceMixin_attributes := None; PartialInterfaceMixin_identifier := n; PartialInterfaceMixin_members := [] |};
   Definition_PartialNamespace {| PartialNamespace_attributes := None; PartialNamespace_identifier := n; PartialNamespace_members := [] |};
   Definition_PartialDictionary {| PartialDictionary_attributes := None; PartialDictionary_identifier := n; PartialDictionary_members := [] |};
   Definition_Enum {| Enum_attributes := None; Enum_identifier := n; Enum_values := [str "x"] |};
   Definition_Typedef {| Typedef_attributes := None; Typedef_type_ := no_attr dom; Typedef_identifier := n |};
   Definition_IncludesStatement {| IncludesStatement_attributes := None; IncludesStatement_lhs_identifier := str "A"; IncludesStatement_rhs_identifier := n |};
   Definition_Implements {| Implements_attributes := None; Implements_lhs_identifier := str "A"; Implements_rhs_identifier := n |}].

(** Any word, also a keyword, in every one of these places is read as the name. *)
Theorem any_word n : NameLex n -> parse (fill all_places n) = Parsed (all_named n).
Proof.
  intros H. change (fill all_places n) with (print_plain (all_named n)). apply parse_print_plain.
  - cbn. unfold is_some. repeat split; auto; intros; congruence.
  - unfold wf_lexemes. cbn.
    repeat (apply Forall_cons; [cbn [lexical]; try exact Logic.I; try exact H; try (apply NameLex_dec; reflexivity); try (cbn; intuition discriminate)|]).
    apply Forall_nil.
Qed.

(** As a type, a word is a name unless it is a built-in type without parameters. *)
Definition named_type (n : text) : AttributedType :=
  no_attr (Type_Single (SingleType_NonAny (NonAnyType_Identifier (mkMayBeNull n None)))).
Theorem type_word n : NameLex n ->
  parse (fill "typedef @ A ;" n) = Parsed [Definition_Typedef (mkTypedefDefinition None (named_type n) (str "A"))] <->
  ~ In n (map str ("any"%string :: type_words)).
Proof.
  intros H. split.
  - intros E K. cbn in K. repeat (destruct K as [<-|K]; [vm_compute in E; discriminate|]). exact K.
  - intros K. apply parse_complete with (ts := [TName false (str "typedef"); TName false n; TName false (str "A"); TPunct ";"]).
    + exists [], (fill "typedef @ A ;" n). split; auto. split; [constructor|]. split; [discriminate|].
      change (fill "typedef @ A ;" n) with (layout [TName false (str "typedef"); TName false n; TName false (str "A"); TPunct ";"]).
      apply layout_Lay.
      repeat (apply Forall_cons; [cbn [valid_tok]; first [exact H | apply NameLex_dec; reflexivity | cbn; tauto]|]). apply Forall_nil.
    + unfold Sentence. cbn [show_Definitions flat_map show_Definition show_attributes app named_type no_attr show_AttributedType
        show_Type show_SingleType show_NonAnyType show_null opt_q attributed_ends_long type_ends_long nonany_ends_long name_after].
      apply Conc_kw, Conc_ty_raw.
      * intros Hin. apply K. rewrite map_app in Hin. apply in_app_or in Hin. cbn [map In] in *. tauto.
      * intros [[_ (r & [E|E])]|[_ (r & [E|E])]]; discriminate.
      * apply Conc_id_raw; [intros []|]. repeat constructor.
    + cbn. tauto.
Qed.
(** Behind a type that ends with [long], every other word is a name. *)
Definition long_type : AttributedType :=
  no_attr (Type_Single (SingleType_NonAny (NonAnyType_Integer (mkMayBeNull (IntegerType_Long (mkLongType None)) None)))).
Theorem word_after_long n : NameLex n ->
  parse (fill "typedef long @ ;" n) = Parsed [Definition_Typedef (mkTypedefDefinition None long_type n)] <-> n <> str "long".
Proof.
  intros H. split.
  - intros E ->. vm_compute in E. discriminate.
  - intros K. apply parse_complete with (ts := [TName false (str "typedef"); TName false (str "long"); TName false n; TPunct ";"]).
    + exists [], (fill "typedef long @ ;" n). split; auto. split; [constructor|]. split; [discriminate|].
      change (fill "typedef long @ ;" n) with (layout [TName false (str "typedef"); TName false (str "long"); TName false n; TPunct ";"]).
      apply layout_Lay.
      repeat (apply Forall_cons; [cbn [valid_tok]; first [exact H | apply NameLex_dec; reflexivity | cbn; tauto]|]). apply Forall_nil.
    + unfold Sentence. cbn. do 2 apply Conc_kw. apply Conc_id_raw; [|repeat constructor]. cbn. intros [E|[]]. apply K. auto.
    + cbn. tauto.
Qed.
