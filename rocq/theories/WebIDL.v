(** * The grammar of the Web IDL standard, and how much of it the crate accepts

    src/lib.rs:19-22: "This parser follows the grammar given at WebIDL.  If any flaws found when parsing string with a valid
    grammar, create an issue."  The tables below are that grammar, written rule by rule as in the standard. *)
From Coq Require Import String Ascii NArith Arith Bool List Lia.
From Verif Require Import Nom Lex Ast Grammar Spec LexFacts NumFacts TokFacts RunFacts Shapes TermFacts Api ApiFacts LexProps
  Tok TokRun TokSound TokComplete TokMembers Shows Exact.
Import ListNotations.
Open Scope list_scope.

(** ** Context-free grammars on tokens *)

(** A grammar: nonterminals with their right hand sides, written as words separated by blanks. *)
Definition rules_text := list (string * list string).
Inductive sym : Set :=
| Kw (s : string)            (* a keyword *)
| Pu (s : string)            (* punctuation *)
| Id | Int | Dec | Str       (* identifier, integer, decimal, string *)
| NegInf                     (* -Infinity *)
| Nt (s : string).           (* a nonterminal *)

Fixpoint words_acc (acc : string) (s : string) : list string :=
  match s with
  | EmptyString => if String.eqb acc "" then [] else [acc]
  | String c s' =>
      if Ascii.eqb c " " then (if String.eqb acc "" then [] else [acc]) ++ words_acc "" s'
      else words_acc (acc ++ String c "")%string s'
  end.
Definition words (s : string) : list string := words_acc "" s.
Definition letter (c : ascii) : bool := let n := nat_of_ascii c in Nat.leb 65 n && Nat.leb n 90 || Nat.leb 97 n && Nat.leb n 122.
Definition read_sym (names : list string) (w : string) : sym :=
  if existsb (String.eqb w) names then Nt w
  else if String.eqb w "identifier" then Id
  else if String.eqb w "integer" then Int
  else if String.eqb w "decimal" then Dec
  else if String.eqb w "string" then Str
  else if String.eqb w "-Infinity" then NegInf
  else match w with String c _ => if letter c then Kw w else Pu w | EmptyString => Pu w end.
Definition grammar := list (string * list (list sym)).
Definition read (g : rules_text) : grammar :=
  map (fun x => (fst x, map (fun rhs => map (read_sym (map fst g)) (words rhs)) (snd x))) g.
Definition rhs_of (g : grammar) (x : string) : list (list sym) :=
  flat_map snd (filter (fun y => String.eqb (fst y) x) g).
Definition keywords_of (g : grammar) : list string :=
  flat_map (fun x => flat_map (flat_map (fun s => match s with Kw k => [k] | _ => [] end)) (snd x)) g.

(** A token as a terminal; [reserved] are the words that are identifiers only with an underscore in front. *)
Definition matches (reserved : list string) (s : sym) (t : tok) : Prop :=
  match s, t with
  | Kw k, TName false n => n = str k
  | Pu p, TPunct q => p = q
  | Id, TName true _ => True
  | Id, TName false n => ~ In n (map str reserved)
  | Int, TInt _ | Dec, TFloat _ | Str, TStr _ | NegInf, TNegInf => True
  | _, _ => False
  end.
(** [Der n a i r]: the tokens [i] are derived from the symbols [a], followed by [r], with derivation trees of depth at most [n]. *)
Inductive Der (g : grammar) (reserved : list string) : nat -> list sym -> list tok -> list tok -> Prop :=
| Der_nil n r : Der g reserved n [] r r
| Der_tok n s t a i r : matches reserved s t -> Der g reserved n a i r -> Der g reserved n (s :: a) (t :: i) r
| Der_nt n x rhs a i m r : In rhs (rhs_of g x) -> Der g reserved n rhs i m -> Der g reserved (S n) a m r ->
    Der g reserved (S n) (Nt x :: a) i r.

(** ** The standard *)
Definition webidl_text : rules_text := [
  ("Definitions", ["ExtendedAttributeList Definition Definitions"; ""]);
  ("Definition", ["CallbackOrInterfaceOrMixin"; "Namespace"; "Partial"; "Dictionary"; "Enum"; "Typedef"; "IncludesStatement"]);
  ("ArgumentNameKeyword", ["async"; "attribute"; "callback"; "const"; "constructor"; "deleter"; "dictionary"; "enum"; "getter";
    "includes"; "inherit"; "interface"; "iterable"; "maplike"; "mixin"; "namespace"; "partial"; "readonly"; "required";
    "setlike"; "setter"; "static"; "stringifier"; "typedef"; "unrestricted"]);
  ("CallbackOrInterfaceOrMixin", ["callback CallbackRestOrInterface"; "interface InterfaceOrMixin"]);
  ("InterfaceOrMixin", ["InterfaceRest"; "MixinRest"]);
  ("InterfaceRest", ["identifier Inheritance { InterfaceMembers } ;"]);
  ("Partial", ["partial PartialDefinition"]);
  ("PartialDefinition", ["interface PartialInterfaceOrPartialMixin"; "PartialDictionary"; "Namespace"]);
  ("PartialInterfaceOrPartialMixin", ["PartialInterfaceRest"; "MixinRest"]);
  ("PartialInterfaceRest", ["identifier { PartialInterfaceMembers } ;"]);
  ("InterfaceMembers", ["ExtendedAttributeList InterfaceMember InterfaceMembers"; ""]);
  ("InterfaceMember", ["PartialInterfaceMember"; "Constructor"]);
  ("PartialInterfaceMembers", ["ExtendedAttributeList PartialInterfaceMember PartialInterfaceMembers"; ""]);
  ("PartialInterfaceMember", ["Const"; "Operation"; "Stringifier"; "StaticMember"; "Iterable"; "AsyncIterable"; "ReadOnlyMember";
    "ReadWriteAttribute"; "ReadWriteMaplike"; "ReadWriteSetlike"; "InheritAttribute"]);
  ("Inheritance", [": identifier"; ""]);
  ("MixinRest", ["mixin identifier { MixinMembers } ;"]);
  ("MixinMembers", ["ExtendedAttributeList MixinMember MixinMembers"; ""]);
  ("MixinMember", ["Const"; "RegularOperation"; "Stringifier"; "OptionalReadOnly AttributeRest"]);
  ("IncludesStatement", ["identifier includes identifier ;"]);
  ("CallbackRestOrInterface", ["CallbackRest"; "interface identifier { CallbackInterfaceMembers } ;"]);
  ("CallbackInterfaceMembers", ["ExtendedAttributeList CallbackInterfaceMember CallbackInterfaceMembers"; ""]);
  ("CallbackInterfaceMember", ["Const"; "RegularOperation"]);
  ("Const", ["const ConstType identifier = ConstValue ;"]);
  ("ConstValue", ["BooleanLiteral"; "FloatLiteral"; "integer"]);
  ("BooleanLiteral", ["true"; "false"]);
  ("FloatLiteral", ["decimal"; "-Infinity"; "Infinity"; "NaN"]);
  ("ConstType", ["PrimitiveType"; "identifier"]);
  ("ReadOnlyMember", ["readonly ReadOnlyMemberRest"]);
  ("ReadOnlyMemberRest", ["AttributeRest"; "MaplikeRest"; "SetlikeRest"]);
  ("ReadWriteAttribute", ["AttributeRest"]);
  ("InheritAttribute", ["inherit AttributeRest"]);
  ("AttributeRest", ["attribute TypeWithExtendedAttributes AttributeName ;"]);
  ("AttributeName", ["AttributeNameKeyword"; "identifier"]);
  ("AttributeNameKeyword", ["async"; "required"]);
  ("OptionalReadOnly", ["readonly"; ""]);
  ("DefaultValue", ["ConstValue"; "string"; "[ ]"; "{ }"; "null"]);
  ("Operation", ["RegularOperation"; "SpecialOperation"]);
  ("RegularOperation", ["Type OperationRest"]);
  ("SpecialOperation", ["Special RegularOperation"]);
  ("Special", ["getter"; "setter"; "deleter"]);
  ("OperationRest", ["OptionalOperationName ( ArgumentList ) ;"]);
  ("OptionalOperationName", ["OperationName"; ""]);
  ("OperationName", ["OperationNameKeyword"; "identifier"]);
  ("OperationNameKeyword", ["includes"]);
  ("ArgumentList", ["Argument Arguments"; ""]);
  ("Arguments", [", Argument Arguments"; ""]);
  ("Argument", ["ExtendedAttributeList ArgumentRest"]);
  ("ArgumentRest", ["optional TypeWithExtendedAttributes ArgumentName Default"; "Type Ellipsis ArgumentName"]);
  ("ArgumentName", ["ArgumentNameKeyword"; "identifier"]);
  ("Ellipsis", ["..."; ""]);
  ("Constructor", ["constructor ( ArgumentList ) ;"]);
  ("Stringifier", ["stringifier StringifierRest"]);
  ("StringifierRest", ["OptionalReadOnly AttributeRest"; "RegularOperation"; ";"]);
  ("StaticMember", ["static StaticMemberRest"]);
  ("StaticMemberRest", ["OptionalReadOnly AttributeRest"; "RegularOperation"]);
  ("Iterable", ["iterable < TypeWithExtendedAttributes OptionalType > ;"]);
  ("OptionalType", [", TypeWithExtendedAttributes"; ""]);
  ("AsyncIterable", ["async iterable < TypeWithExtendedAttributes OptionalType > OptionalArgumentList ;"]);
  ("OptionalArgumentList", ["( ArgumentList )"; ""]);
  ("ReadWriteMaplike", ["MaplikeRest"]);
  ("MaplikeRest", ["maplike < TypeWithExtendedAttributes , TypeWithExtendedAttributes > ;"]);
  ("ReadWriteSetlike", ["SetlikeRest"]);
  ("SetlikeRest", ["setlike < TypeWithExtendedAttributes > ;"]);
  ("Namespace", ["namespace identifier { NamespaceMembers } ;"]);
  ("NamespaceMembers", ["ExtendedAttributeList NamespaceMember NamespaceMembers"; ""]);
  ("NamespaceMember", ["RegularOperation"; "readonly AttributeRest"; "Const"]);
  ("Dictionary", ["dictionary identifier Inheritance { DictionaryMembers } ;"]);
  ("DictionaryMembers", ["DictionaryMember DictionaryMembers"; ""]);
  ("DictionaryMember", ["ExtendedAttributeList DictionaryMemberRest"]);
  ("DictionaryMemberRest", ["required TypeWithExtendedAttributes identifier ;"; "Type identifier Default ;"]);
  ("PartialDictionary", ["dictionary identifier { DictionaryMembers } ;"]);
  ("Default", ["= DefaultValue"; ""]);
  ("Enum", ["enum identifier { EnumValueList } ;"]);
  ("EnumValueList", ["string EnumValueListComma"]);
  ("EnumValueListComma", [", EnumValueListString"; ""]);
  ("EnumValueListString", ["string EnumValueListComma"; ""]);
  ("CallbackRest", ["identifier = Type ( ArgumentList ) ;"]);
  ("Typedef", ["typedef TypeWithExtendedAttributes identifier ;"]);
  ("Type", ["SingleType"; "UnionType Null"]);
  ("TypeWithExtendedAttributes", ["ExtendedAttributeList Type"]);
  ("SingleType", ["DistinguishableType"; "any"; "PromiseType"]);
  ("UnionType", ["( UnionMemberType or UnionMemberType UnionMemberTypes )"]);
  ("UnionMemberType", ["ExtendedAttributeList DistinguishableType"; "UnionType Null"]);
  ("UnionMemberTypes", ["or UnionMemberType UnionMemberTypes"; ""]);
  ("DistinguishableType", ["PrimitiveType Null"; "StringType Null"; "identifier Null"; "sequence < TypeWithExtendedAttributes > Null";
    "object Null"; "symbol Null"; "BufferRelatedType Null"; "FrozenArray < TypeWithExtendedAttributes > Null";
    "ObservableArray < TypeWithExtendedAttributes > Null"; "RecordType Null"]);
  ("PrimitiveType", ["UnsignedIntegerType"; "UnrestrictedFloatType"; "undefined"; "boolean"; "byte"; "octet"; "bigint"]);
  ("UnrestrictedFloatType", ["unrestricted FloatType"; "FloatType"]);
  ("FloatType", ["float"; "double"]);
  ("UnsignedIntegerType", ["unsigned IntegerType"; "IntegerType"]);
  ("IntegerType", ["short"; "long OptionalLong"]);
  ("OptionalLong", ["long"; ""]);
  ("StringType", ["ByteString"; "DOMString"; "USVString"]);
  ("PromiseType", ["Promise < Type >"]);
  ("RecordType", ["record < StringType , TypeWithExtendedAttributes >"]);
  ("Null", ["?"; ""]);
  ("BufferRelatedType", ["ArrayBuffer"; "DataView"; "Int8Array"; "Int16Array"; "Int32Array"; "Uint8Array"; "Uint16Array";
    "Uint32Array"; "Uint8ClampedArray"; "Float32Array"; "Float64Array"]);
  ("ExtendedAttributeList", ["[ ExtendedAttribute ExtendedAttributes ]"; ""]);
  ("ExtendedAttributes", [", ExtendedAttribute ExtendedAttributes"; ""]);
  ("ExtendedAttribute", ["ExtendedAttributeNoArgs"; "ExtendedAttributeArgList"; "ExtendedAttributeNamedArgList";
    "ExtendedAttributeIdent"; "ExtendedAttributeWildcard"; "ExtendedAttributeIdentList"]);
  ("ExtendedAttributeNoArgs", ["identifier"]);
  ("ExtendedAttributeArgList", ["identifier ( ArgumentList )"]);
  ("ExtendedAttributeIdent", ["identifier = identifier"]);
  ("ExtendedAttributeWildcard", ["identifier = *"]);
  ("ExtendedAttributeIdentList", ["identifier = ( IdentifierList )"]);
  ("ExtendedAttributeNamedArgList", ["identifier = identifier ( ArgumentList )"]);
  ("IdentifierList", ["identifier Identifiers"]);
  ("Identifiers", [", identifier Identifiers"; ""])
]%string.
Definition webidl : grammar := read webidl_text.
Definition webidl_keywords : list string := keywords_of webidl.
(** [Standard ts]: the tokens [ts] are a sequence of definitions according to the standard. *)
Definition Standard (ts : list tok) : Prop := exists n, Der webidl webidl_keywords n [Nt "Definitions"] ts [].

(** ** What the crate does not accept *)
(** The same rules except for:
    - attributes of the types in [sequence<>], [FrozenArray<>] and [record<,>] and behind [required];
    - [ObservableArray];
    - [undefined?] as a return type (other types may begin with [undefined]);
    - the unescaped identifier [legacycaller]. *)
Definition changed_text : rules_text := [
  ("RegularOperation", ["ReturnType OperationRest"]);
  ("CallbackRest", ["identifier = ReturnType ( ArgumentList ) ;"]);
  ("PromiseType", ["Promise < ReturnType >"]);
  ("ReturnType", ["undefined"; "DefinedType"]);
  ("DefinedType", ["DefinedSingleType"; "UnionType Null"]);
  ("DefinedSingleType", ["DefinedDistinguishableType"; "any"; "PromiseType"]);
  ("DistinguishableType", ["DefinedDistinguishableType"; "undefined Null"]);
  ("DefinedDistinguishableType", ["DefinedPrimitiveType Null"; "StringType Null"; "identifier Null"; "sequence < Type > Null";
    "object Null"; "symbol Null"; "BufferRelatedType Null"; "FrozenArray < Type > Null"; "RecordType Null"]);
  ("PrimitiveType", ["DefinedPrimitiveType"; "undefined"]);
  ("DefinedPrimitiveType", ["UnsignedIntegerType"; "UnrestrictedFloatType"; "boolean"; "byte"; "octet"; "bigint"]);
  ("RecordType", ["record < StringType , Type >"]);
  ("DictionaryMemberRest", ["required Type identifier ;"; "Type identifier Default ;"])
]%string.
Definition supported_text : rules_text :=
  changed_text ++ filter (fun x => negb (existsb (fun y => String.eqb (fst x) (fst y)) changed_text)) webidl_text.
Definition supported : grammar := read supported_text.
Definition supported_reserved : list string := "legacycaller"%string :: webidl_keywords.
Definition Supported (ts : list tok) : Prop := exists n, Der supported supported_reserved n [Nt "Definitions"] ts [].

(** ** Deciding derivability, for examples *)
Definition matchesb (reserved : list string) (s : sym) (t : tok) : bool :=
  match s, t with
  | Kw k, TName false n => text_eqb n (str k)
  | Pu p, TPunct q => String.eqb p q
  | Id, TName true _ => true
  | Id, TName false n => negb (existsb (text_eqb n) (map str reserved))
  | Int, TInt _ | Dec, TFloat _ | Str, TStr _ | NegInf, TNegInf => true
  | _, _ => false
  end.
Fixpoint derive (g : grammar) (reserved : list string) (n : nat) : list sym -> list tok -> list (list tok) :=
  fix go (a : list sym) (i : list tok) : list (list tok) :=
    match a with
    | [] => [i]
    | Nt x :: a' =>
        match n with
        | 0 => []
        | S n' => flat_map (fun rhs => flat_map (fun m => go a' m) (derive g reserved n' rhs i)) (rhs_of g x)
        end
    | s :: a' =>
        match i with
        | t :: i' => if matchesb reserved s t then go a' i' else []
        | [] => []
        end
    end.
Lemma matchesb_ok res s t : matchesb res s t = true -> matches res s t.
Proof.
  destruct s, t as [[] ?| | | | |]; cbn; try discriminate; auto.
  - intros H. apply text_eqb_spec in H. auto.
  - intros H. apply String.eqb_eq in H. auto.
  - intros H HI. rewrite negb_true_iff in H. assert (existsb (text_eqb n) (map str res) = true); [|congruence].
    apply existsb_exists. exists n. split; auto. apply text_eqb_spec. auto.
Qed.
Lemma derive_ok g res n : forall a i r, In r (derive g res n a i) -> Der g res n a i r.
Proof.
  induction n as [|n IHn]; intros a; induction a as [|s a IH]; intros i r H; cbn in H.
  - destruct H as [->|[]]. constructor.
  - destruct s; try (destruct H); destruct i as [|t i]; try (destruct H);
      match type of H with In _ (if ?b then _ else _) => destruct b eqn:E; [|destruct H] end; constructor; auto; apply matchesb_ok; auto.
  - destruct H as [->|[]]. constructor.
  - destruct s; try (destruct i as [|t i]; try (destruct H);
      match type of H with In _ (if ?b then _ else _) => destruct b eqn:E; [|destruct H] end; constructor; auto; apply matchesb_ok; auto; fail).
    apply in_flat_map in H as (rhs & H1 & H). apply in_flat_map in H as (m & H2 & H). econstructor; eauto.
Qed.
Definition accepts (g : grammar) (reserved : list string) (n : nat) (ts : list tok) : bool :=
  existsb (fun r => match r with [] => true | _ => false end) (derive g reserved n [Nt "Definitions"] ts).
Lemma accepts_ok g res n ts : accepts g res n ts = true -> Der g res n [Nt "Definitions"] ts [].
Proof.
  intros H. apply existsb_exists in H as (r & H1 & H2). destruct r; [|discriminate]. apply derive_ok; auto.
Qed.
