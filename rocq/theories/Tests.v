(** * The unit tests of /repo/src, evaluated in the model.

    Not theorems about all inputs: they compare the model with what the authors of the code expect of it. *)
From Coq Require Import String Ascii NArith Arith Bool List Lia.
From Verif Require Import Nom Lex Ast Grammar Api.
Import ListNotations.
Open Scope list_scope.
Open Scope bool_scope.

(** [parse(raw).unwrap()] is the value tested by [f], with the remaining input [rem] (src/macros.rs:575-590). *)
Definition ok_with {A} (r : res text A) (rem : text) (f : A -> bool) : bool :=
  match r with Ok r a => text_eqb r rem && f a | _ => false end.
(** [unwrap_err()] (src/macros.rs:569-574). *)
Definition is_err {A} (r : res text A) : bool := match r with Err _ => true | _ => false end.
Definition is_some {A} (o : option A) : bool := match o with Some _ => true | None => false end.
Definition is_none {A} (o : option A) : bool := match o with Some _ => false | None => true end.

(** src/literal.rs:151: literal_should_parse_integer. *)
Example t_literal_should_parse_integer : ok_with (p_IntegerLit (str "45")) (str "") (fun x => match x with IntegerLit_Dec s => text_eqb s (str "45") | _ => false end) = true.
Proof. vm_compute. reflexivity. Qed.
(** src/literal.rs:156: literal_should_parse_integer_surrounding_with_spaces. *)
Example t_literal_should_parse_integer_surrounding_with_spaces : ok_with (p_IntegerLit (str "  123123  ")) (str "") (fun x => match x with IntegerLit_Dec s => text_eqb s (str "123123") | _ => false end) = true.
Proof. vm_compute. reflexivity. Qed.
(** src/literal.rs:161: literal_should_parse_integer_preceeding_others. *)
Example t_literal_should_parse_integer_preceeding_others : ok_with (p_IntegerLit (str "3453 string")) (str "string") (fun x => match x with IntegerLit_Dec s => text_eqb s (str "3453") | _ => false end) = true.
Proof. vm_compute. reflexivity. Qed.
(** src/literal.rs:166: literal_should_parse_neg_integer. *)
Example t_literal_should_parse_neg_integer : ok_with (p_IntegerLit (str "-435")) (str "") (fun x => match x with IntegerLit_Dec s => text_eqb s (str "-435") | _ => false end) = true.
Proof. vm_compute. reflexivity. Qed.
(** src/literal.rs:171: literal_should_parse_hex_number. *)
Example t_literal_should_parse_hex_number : ok_with (p_IntegerLit (str "0X08")) (str "") (fun x => match x with IntegerLit_Hex s => text_eqb s (str "0X08") | _ => false end) = true.
Proof. vm_compute. reflexivity. Qed.
(** src/literal.rs:176: literal_should_parse_hex_large_number. *)
Example t_literal_should_parse_hex_large_number : ok_with (p_IntegerLit (str "0xA")) (str "") (fun x => match x with IntegerLit_Hex s => text_eqb s (str "0xA") | _ => false end) = true.
Proof. vm_compute. reflexivity. Qed.
(** src/literal.rs:181: literal_should_parse_zero. *)
Example t_literal_should_parse_zero : ok_with (p_IntegerLit (str "0")) (str "") (fun x => match x with IntegerLit_Oct s => text_eqb s (str "0") | _ => false end) = true.
Proof. vm_compute. reflexivity. Qed.
(** src/literal.rs:186: literal_should_parse_oct_number. *)
Example t_literal_should_parse_oct_number : ok_with (p_IntegerLit (str "-07561")) (str "") (fun x => match x with IntegerLit_Oct s => text_eqb s (str "-07561") | _ => false end) = true.
Proof. vm_compute. reflexivity. Qed.
(** src/literal.rs:191: literal_should_parse_float. *)
Example t_literal_should_parse_float : ok_with (p_FloatLit (str "45.434")) (str "") (fun x => match x with FloatLit_Value s => text_eqb s (str "45.434") | _ => false end) = true.
Proof. vm_compute. reflexivity. Qed.
(** src/literal.rs:196: literal_should_parse_float_surrounding_with_spaces. *)
Example t_literal_should_parse_float_surrounding_with_spaces : ok_with (p_FloatLit (str "  2345.2345  ")) (str "") (fun x => match x with FloatLit_Value s => text_eqb s (str "2345.2345") | _ => false end) = true.
Proof. vm_compute. reflexivity. Qed.
(** src/literal.rs:201: literal_should_parse_float_preceeding_others. *)
Example t_literal_should_parse_float_preceeding_others : ok_with (p_FloatLit (str "3453.32334 string")) (str "string") (fun x => match x with FloatLit_Value s => text_eqb s (str "3453.32334") | _ => false end) = true.
Proof. vm_compute. reflexivity. Qed.
(** src/literal.rs:206: literal_should_parse_neg_float. *)
Example t_literal_should_parse_neg_float : ok_with (p_FloatLit (str "-435.3435")) (str "") (fun x => match x with FloatLit_Value s => text_eqb s (str "-435.3435") | _ => false end) = true.
Proof. vm_compute. reflexivity. Qed.
(** src/literal.rs:211: literal_should_parse_float_exp. *)
Example t_literal_should_parse_float_exp : ok_with (p_FloatLit (str "5.3434e23")) (str "") (fun x => match x with FloatLit_Value s => text_eqb s (str "5.3434e23") | _ => false end) = true.
Proof. vm_compute. reflexivity. Qed.
(** src/literal.rs:216: literal_should_parse_float_exp_with_decimal. *)
Example t_literal_should_parse_float_exp_with_decimal : ok_with (p_FloatLit (str "3e23")) (str "") (fun x => match x with FloatLit_Value s => text_eqb s (str "3e23") | _ => false end) = true.
Proof. vm_compute. reflexivity. Qed.
(** src/literal.rs:221: literal_should_parse_neg_infinity. *)
Example t_literal_should_parse_neg_infinity : ok_with (p_FloatLit (str "-Infinity")) (str "") (fun x => match x with FloatLit_NegInfinity => true | _ => false end) = true.
Proof. vm_compute. reflexivity. Qed.
(** src/literal.rs:226: literal_should_parse_infinity. *)
Example t_literal_should_parse_infinity : ok_with (p_FloatLit (str "Infinity")) (str "") (fun x => match x with FloatLit_Infinity => true | _ => false end) = true.
Proof. vm_compute. reflexivity. Qed.
(** src/literal.rs:231: literal_should_parse_string. *)
Example t_literal_should_parse_string : ok_with (p_StringLit (str """this is a string""")) (str "") (fun x => text_eqb x (str "this is a string")) = true.
Proof. vm_compute. reflexivity. Qed.
(** src/literal.rs:236: literal_should_parse_string_surround_with_spaces. *)
Example t_literal_should_parse_string_surround_with_spaces : ok_with (p_StringLit (str "  ""this is a string""  ")) (str "") (fun x => text_eqb x (str "this is a string")) = true.
Proof. vm_compute. reflexivity. Qed.
(** src/literal.rs:241: literal_should_parse_string_followed_by_string. *)
Example t_literal_should_parse_string_followed_by_string : ok_with (p_StringLit (str " ""this is first""  ""this is second"" ")) (str """this is second"" ") (fun x => text_eqb x (str "this is first")) = true.
Proof. vm_compute. reflexivity. Qed.
(** src/literal.rs:246: literal_should_parse_string_with_spaces. *)
Example t_literal_should_parse_string_with_spaces : ok_with (p_StringLit (str "  ""  this is a string  ""  ")) (str "") (fun x => text_eqb x (str "  this is a string  ")) = true.
Proof. vm_compute. reflexivity. Qed.
(** src/literal.rs:251: literal_should_parse_string_with_comment. *)
Example t_literal_should_parse_string_with_comment : ok_with (p_StringLit (str "  ""// this is still a string""
     ")) (str "") (fun x => text_eqb x (str "// this is still a string")) = true.
Proof. vm_compute. reflexivity. Qed.
(** src/literal.rs:257: literal_should_parse_string_with_multiline_comment. *)
Example t_literal_should_parse_string_with_multiline_comment : ok_with (p_StringLit (str "  ""/*""  ""*/""  ")) (str """*/""  ") (fun x => text_eqb x (str "/*")) = true.
Proof. vm_compute. reflexivity. Qed.
(** src/literal.rs:262: literal_should_parse_null. *)
Example t_literal_should_parse_null : ok_with (p_term Null (str "null")) (str "") (fun x => true) = true.
Proof. vm_compute. reflexivity. Qed.
(** src/literal.rs:267: literal_should_parse_empty_array. *)
Example t_literal_should_parse_empty_array : ok_with (p_EmptyArrayLit (str "[]")) (str "") (fun x => true) = true.
Proof. vm_compute. reflexivity. Qed.
(** src/literal.rs:272: literal_should_parse_bool_true. *)
Example t_literal_should_parse_bool_true : ok_with (p_BooleanLit (str "true")) (str "") (fun x => Bool.eqb x true) = true.
Proof. vm_compute. reflexivity. Qed.
(** src/literal.rs:277: literal_should_parse_bool_false. *)
Example t_literal_should_parse_bool_false : ok_with (p_BooleanLit (str "false")) (str "") (fun x => Bool.eqb x false) = true.
Proof. vm_compute. reflexivity. Qed.
(** src/common.rs:106: common_should_parse_optional_present. *)
Example t_common_should_parse_optional_present : ok_with (parse_as (e_Option e_Identifier) (str "one")) (str "") (fun x => is_some x) = true.
Proof. vm_compute. reflexivity. Qed.
(** src/common.rs:112: common_should_parse_optional_not_present. *)
Example t_common_should_parse_optional_not_present : ok_with (parse_as (e_Option e_Identifier) (str "")) (str "") (fun x => is_none x) = true.
Proof. vm_compute. reflexivity. Qed.
(** src/common.rs:118: common_should_parse_boxed. *)
Example t_common_should_parse_boxed : ok_with (parse_as e_Identifier (str "one")) (str "") (fun x => true) = true.
Proof. vm_compute. reflexivity. Qed.
(** src/common.rs:123: common_should_parse_vec. *)
Example t_common_should_parse_vec : ok_with (parse_as (e_Vec e_Identifier) (str "one two three")) (str "") (fun x => Nat.eqb (length x) 3) = true.
Proof. vm_compute. reflexivity. Qed.
(** src/common.rs:129: common_should_parse_parenthesized. *)
Example t_common_should_parse_parenthesized : ok_with (parse_as (e_Parenthesized e_Identifier) (str "( one )")) (str "") (fun x => text_eqb x (str "one")) = true.
Proof. vm_compute. reflexivity. Qed.
(** src/common.rs:135: common_should_parse_bracketed. *)
Example t_common_should_parse_bracketed : ok_with (parse_as (e_Bracketed e_Identifier) (str "[ one ]")) (str "") (fun x => text_eqb x (str "one")) = true.
Proof. vm_compute. reflexivity. Qed.
(** src/common.rs:141: common_should_parse_braced. *)
Example t_common_should_parse_braced : ok_with (parse_as (e_Braced e_Identifier) (str "{ one }")) (str "") (fun x => text_eqb x (str "one")) = true.
Proof. vm_compute. reflexivity. Qed.
(** src/common.rs:147: common_should_parse_generics. *)
Example t_common_should_parse_generics : ok_with (parse_as (e_Generics e_Identifier) (str "<one>")) (str "") (fun x => text_eqb x (str "one")) = true.
Proof. vm_compute. reflexivity. Qed.
(** src/common.rs:153: common_should_parse_generics_two. *)
Example t_common_should_parse_generics_two : ok_with (parse_as (e_Generics (e_triple e_Identifier Comma e_Identifier)) (str "<one, two>")) (str "") (fun x => text_eqb (fst x) (str "one") && text_eqb (snd x) (str "two")) = true.
Proof. vm_compute. reflexivity. Qed.
(** src/common.rs:163: common_should_parse_comma_separated_values. *)
Example t_common_should_parse_comma_separated_values : ok_with (parse_as (e_Punctuated e_Identifier Comma) (str "one, two, three")) (str "") (fun x => Nat.eqb (length x) 3) = true.
Proof. vm_compute. reflexivity. Qed.
(** src/common.rs:169: should_not_parse_comma_separated_values_empty. *)
Example t_common_should_not_parse_comma_separated_values_empty : is_err (parse_as (e_PunctuatedNonEmpty e_Identifier Comma) (str "")) = true.
Proof. vm_compute. reflexivity. Qed.
(** src/common.rs:173: common_should_parse_identifier. *)
Example t_common_should_parse_identifier : ok_with (p_Identifier (str "hello")) (str "") (fun x => text_eqb x (str "hello")) = true.
Proof. vm_compute. reflexivity. Qed.
(** src/common.rs:179: common_should_parse_numbered_identifier. *)
Example t_common_should_parse_numbered_identifier : ok_with (p_Identifier (str "hello5")) (str "") (fun x => text_eqb x (str "hello5")) = true.
Proof. vm_compute. reflexivity. Qed.
(** src/common.rs:185: common_should_parse_underscored_identifier. *)
Example t_common_should_parse_underscored_identifier : ok_with (p_Identifier (str "_hello_")) (str "") (fun x => text_eqb x (str "hello_")) = true.
Proof. vm_compute. reflexivity. Qed.
(** src/common.rs:191: common_should_parse_identifier_surrounding_with_spaces. *)
Example t_common_should_parse_identifier_surrounding_with_spaces : ok_with (p_Identifier (str "  hello  ")) (str "") (fun x => text_eqb x (str "hello")) = true.
Proof. vm_compute. reflexivity. Qed.
(** src/common.rs:197: common_should_parse_identifier_preceeding_others. *)
Example t_common_should_parse_identifier_preceeding_others : ok_with (p_Identifier (str "hello  note")) (str "note") (fun x => text_eqb x (str "hello")) = true.
Proof. vm_compute. reflexivity. Qed.
(** src/common.rs:203: common_should_parse_identifier_attached_to_symbol. *)
Example t_common_should_parse_identifier_attached_to_symbol : ok_with (p_Identifier (str "hello=")) (str "=") (fun x => text_eqb x (str "hello")) = true.
Proof. vm_compute. reflexivity. Qed.
(** src/types.rs:173: types_should_parse_may_be_null. *)
Example t_types_should_parse_may_be_null : ok_with (parse_as (e_MayBeNull e_IntegerType) (str "short")) (str "") (fun x => is_none (q_mark x)) = true.
Proof. vm_compute. reflexivity. Qed.
(** src/types.rs:179: types_should_parse_nullable. *)
Example t_types_should_parse_nullable : ok_with (parse_as (e_MayBeNull e_IntegerType) (str "short?")) (str "") (fun x => is_some (q_mark x)) = true.
Proof. vm_compute. reflexivity. Qed.
(** src/types.rs:252: types_should_parse_record_type. *)
Example t_types_should_parse_record_type : ok_with (parse_as e_RecordType (str "record<DOMString, short>")) (str "") (fun x => true) = true.
Proof. vm_compute. reflexivity. Qed.
(** src/types.rs:257: types_should_parse_record_type_alt_types. *)
Example t_types_should_parse_record_type_alt_types : ok_with (parse_as e_RecordType (str "record<u64, short>")) (str "") (fun x => true) = true.
Proof. vm_compute. reflexivity. Qed.
(** src/types.rs:262: types_should_parse_double_type. *)
Example t_types_should_parse_double_type : ok_with (parse_as e_DoubleType (str "double")) (str "") (fun x => true) = true.
Proof. vm_compute. reflexivity. Qed.
(** src/types.rs:267: types_should_parse_float_type. *)
Example t_types_should_parse_float_type : ok_with (parse_as e_FloatType (str "float")) (str "") (fun x => true) = true.
Proof. vm_compute. reflexivity. Qed.
(** src/types.rs:279: types_should_parse_long_long_type. *)
Example t_types_should_parse_long_long_type : ok_with (parse_as e_LongLongType (str "long long")) (str "") (fun x => true) = true.
Proof. vm_compute. reflexivity. Qed.
(** src/types.rs:284: types_should_parse_long_type. *)
Example t_types_should_parse_long_type : ok_with (parse_as e_LongType (str "long")) (str "") (fun x => true) = true.
Proof. vm_compute. reflexivity. Qed.
(** src/types.rs:289: types_should_parse_short_type. *)
Example t_types_should_parse_short_type : ok_with (parse_as e_ShortType (str "short")) (str "") (fun x => true) = true.
Proof. vm_compute. reflexivity. Qed.
(** src/types.rs:302: types_should_parse_promise_type. *)
Example t_types_should_parse_promise_type : ok_with (parse_as e_PromiseType (str "Promise<short>")) (str "") (fun x => true) = true.
Proof. vm_compute. reflexivity. Qed.
(** src/types.rs:307: types_should_parse_frozen_array_type. *)
Example t_types_should_parse_frozen_array_type : ok_with (parse_as e_FrozenArrayType (str "FrozenArray<short>")) (str "") (fun x => true) = true.
Proof. vm_compute. reflexivity. Qed.
(** src/types.rs:312: types_should_parse_sequence_type. *)
Example t_types_should_parse_sequence_type : ok_with (parse_as e_SequenceType (str "sequence<short>")) (str "") (fun x => true) = true.
Proof. vm_compute. reflexivity. Qed.
(** src/types.rs:331: types_should_parse_attributed_type. *)
Example t_types_should_parse_attributed_type : ok_with (parse_as e_AttributedType (str "[Named] short")) (str "") (fun x => match x with mkAttributedType v_attributes _ => is_some v_attributes end) = true.
Proof. vm_compute. reflexivity. Qed.
(** src/types.rs:337: types_should_parse_type_as_identifier. *)
Example t_types_should_parse_type_as_identifier : ok_with (parse_as e_Type (str "DOMStringMap")) (str "") (fun x => true) = true.
Proof. vm_compute. reflexivity. Qed.
(** src/argument.rs:40: argument_should_parse_single_argument. *)
Example t_argument_should_parse_single_argument : ok_with (parse_as e_SingleArgument (str "short a")) (str "") (fun x => match x with mkSingleArgument v_attributes v_optional _ v_identifier v_default => is_none v_attributes && is_none v_optional && text_eqb v_identifier (str "a") && is_none v_default end) = true.
Proof. vm_compute. reflexivity. Qed.
(** src/argument.rs:49: argument_should_parse_variadic_argument. *)
Example t_argument_should_parse_variadic_argument : ok_with (parse_as e_VariadicArgument (str "short... a")) (str "") (fun x => match x with mkVariadicArgument v_attributes _ v_identifier => is_none v_attributes && text_eqb v_identifier (str "a") end) = true.
Proof. vm_compute. reflexivity. Qed.
(** src/argument.rs:56: argument_should_parse_optional_single_argument. *)
Example t_argument_should_parse_optional_single_argument : ok_with (parse_as e_SingleArgument (str "optional short a")) (str "") (fun x => match x with mkSingleArgument v_attributes v_optional _ v_identifier v_default => is_none v_attributes && is_some v_optional && text_eqb v_identifier (str "a") && is_none v_default end) = true.
Proof. vm_compute. reflexivity. Qed.
(** src/argument.rs:65: argument_should_parse_optional_single_argument_with_default. *)
Example t_argument_should_parse_optional_single_argument_with_default : ok_with (parse_as e_SingleArgument (str "optional short a = 5")) (str "") (fun x => match x with mkSingleArgument v_attributes v_optional _ v_identifier v_default => is_none v_attributes && is_some v_optional && text_eqb v_identifier (str "a") && match v_default with Some (DefaultValue_Integer (IntegerLit_Dec s)) => text_eqb s (str "5") | _ => false end end) = true.
Proof. vm_compute. reflexivity. Qed.
(** src/attribute.rs:73: attribute_should_parse_attribute_no_args. *)
Example t_attribute_should_parse_attribute_no_args : ok_with (parse_as e_ExtendedAttributeNoArgs (str "Replaceable")) (str "") (fun x => text_eqb x (str "Replaceable")) = true.
Proof. vm_compute. reflexivity. Qed.
(** src/attribute.rs:78: attribute_should_parse_attribute_arg_list. *)
Example t_attribute_should_parse_attribute_arg_list : ok_with (parse_as e_ExtendedAttributeArgList (str "Constructor(double x, double y)")) (str "") (fun x => match x with mkExtendedAttributeArgList v_identifier v_args => text_eqb v_identifier (str "Constructor") && Nat.eqb (length v_args) 2 end) = true.
Proof. vm_compute. reflexivity. Qed.
(** src/attribute.rs:85: attribute_should_parse_attribute_ident. *)
Example t_attribute_should_parse_attribute_ident : ok_with (parse_as e_ExtendedAttributeIdent (str "PutForwards=name")) (str "") (fun x => text_eqb (EAIdent_lhs_identifier x) (str "PutForwards") && match (EAIdent_rhs x) with IdentifierOrString_Identifier s => text_eqb s (str "name") | _ => false end) = true.
Proof. vm_compute. reflexivity. Qed.
(** src/attribute.rs:92: attribute_should_parse_ident_list. *)
Example t_attribute_should_parse_ident_list : ok_with (parse_as e_ExtendedAttributeIdentList (str "Exposed=(Window,Worker)")) (str "") (fun x => text_eqb (EAIdentList_identifier x) (str "Exposed") && Nat.eqb (length (EAIdentList_list x)) 2) = true.
Proof. vm_compute. reflexivity. Qed.
(** src/attribute.rs:99: attribute_should_parse_named_arg_list. *)
Example t_attribute_should_parse_named_arg_list : ok_with (parse_as e_ExtendedAttributeNamedArgList (str "NamedConstructor=Image(DOMString src)")) (str "") (fun x => match x with mkExtendedAttributeNamedArgList v_lhs_identifier v_rhs_identifier v_args => text_eqb v_lhs_identifier (str "NamedConstructor") && text_eqb v_rhs_identifier (str "Image") && Nat.eqb (length v_args) 1 end) = true.
Proof. vm_compute. reflexivity. Qed.
(** src/dictionary.rs:25: dictionary_should_parse_dictionary_member. *)
Example t_dictionary_should_parse_dictionary_member : ok_with (parse_as e_DictionaryMember (str "required long num = 5;")) (str "") (fun x => is_none (DM_attributes x) && is_some (DM_required x) && text_eqb (DM_identifier x) (str "num") && is_some (DM_default x)) = true.
Proof. vm_compute. reflexivity. Qed.
(** src/interface.rs:151: interface_should_parse_stringifier_member. *)
Example t_interface_should_parse_stringifier_member : ok_with (parse_as e_StringifierMember (str "stringifier;")) (str "") (fun x => true) = true.
Proof. vm_compute. reflexivity. Qed.
(** src/interface.rs:156: interface_should_parse_stringifier_or_static. *)
Example t_interface_should_parse_stringifier_or_static : ok_with (parse_as e_StringifierOrStatic (str "static")) (str "") (fun x => true) = true.
Proof. vm_compute. reflexivity. Qed.
(** src/interface.rs:161: interface_should_parse_stringifier_or_inherit_or_static. *)
Example t_interface_should_parse_stringifier_or_inherit_or_static : ok_with (parse_as e_StringifierOrInheritOrStatic (str "inherit")) (str "") (fun x => true) = true.
Proof. vm_compute. reflexivity. Qed.
(** src/interface.rs:166: interface_should_parse_setlike_interface_member. *)
Example t_interface_should_parse_setlike_interface_member : ok_with (parse_as e_SetlikeInterfaceMember (str "readonly setlike<long>;")) (str "") (fun x => is_none (SLIM_attributes x) && is_some (SLIM_readonly x)) = true.
Proof. vm_compute. reflexivity. Qed.
(** src/interface.rs:173: interface_should_parse_maplike_interface_member. *)
Example t_interface_should_parse_maplike_interface_member : ok_with (parse_as e_MaplikeInterfaceMember (str "readonly maplike<long, short>;")) (str "") (fun x => is_none (MIM_attributes x) && is_some (MIM_readonly x)) = true.
Proof. vm_compute. reflexivity. Qed.
(** src/interface.rs:180: interface_should_parse_attribute_interface_member. *)
Example t_interface_should_parse_attribute_interface_member : ok_with (parse_as e_AttributeInterfaceMember (str "readonly attribute unsigned long width;")) (str "") (fun x => is_none (AIM_attributes x) && is_some (AIM_readonly x) && text_eqb (AIM_identifier x) (str "width")) = true.
Proof. vm_compute. reflexivity. Qed.
(** src/interface.rs:188: interface_should_parse_double_typed_iterable. *)
Example t_interface_should_parse_double_typed_iterable : ok_with (parse_as e_DoubleTypedIterable (str "iterable<long, long>;")) (str "") (fun x => is_none (DTI_attributes x)) = true.
Proof. vm_compute. reflexivity. Qed.
(** src/interface.rs:194: interface_should_parse_single_typed_iterable. *)
Example t_interface_should_parse_single_typed_iterable : ok_with (parse_as e_SingleTypedIterable (str "iterable<long>;")) (str "") (fun x => is_none (STI_attributes x)) = true.
Proof. vm_compute. reflexivity. Qed.
(** src/interface.rs:200: interface_should_parse_double_typed_async_iterable. *)
Example t_interface_should_parse_double_typed_async_iterable : ok_with (parse_as e_DoubleTypedAsyncIterable (str "async iterable<long, long>;")) (str "") (fun x => is_none (DTAI_attributes x) && is_none (DTAI_args x)) = true.
Proof. vm_compute. reflexivity. Qed.
(** src/interface.rs:207: interface_should_parse_double_typed_async_iterable_with_args. *)
Example t_interface_should_parse_double_typed_async_iterable_with_args : ok_with (parse_as e_DoubleTypedAsyncIterable (str "async iterable<long, long>(long a);")) (str "") (fun x => is_none (DTAI_attributes x) && is_some (DTAI_args x)) = true.
Proof. vm_compute. reflexivity. Qed.
(** src/interface.rs:214: interface_should_parse_single_typed_async_iterable. *)
Example t_interface_should_parse_single_typed_async_iterable : ok_with (parse_as e_SingleTypedAsyncIterable (str "async iterable<long>;")) (str "") (fun x => is_none (STAI_attributes x) && is_none (STAI_args x)) = true.
Proof. vm_compute. reflexivity. Qed.
(** src/interface.rs:221: interface_should_parse_single_typed_async_iterable_with_args. *)
Example t_interface_should_parse_single_typed_async_iterable_with_args : ok_with (parse_as e_SingleTypedAsyncIterable (str "async iterable<long>(long a);")) (str "") (fun x => is_none (STAI_attributes x) && is_some (STAI_args x)) = true.
Proof. vm_compute. reflexivity. Qed.
(** src/interface.rs:228: interface_should_parse_constructor_interface_member. *)
Example t_interface_should_parse_constructor_interface_member : ok_with (parse_as e_ConstructorInterfaceMember (str "constructor(long a);")) (str "") (fun x => is_none (CIM_attributes x)) = true.
Proof. vm_compute. reflexivity. Qed.
(** src/interface.rs:234: interface_should_parse_operation_interface_member. *)
Example t_interface_should_parse_operation_interface_member : ok_with (parse_as e_OperationInterfaceMember (str "undefined readString(long a, long b);")) (str "") (fun x => is_none (OIM_attributes x) && is_none (OIM_modifier x) && is_none (OIM_special x) && is_some (OIM_identifier x)) = true.
Proof. vm_compute. reflexivity. Qed.
(** src/interface.rs:243: interface_should_parse_const_member. *)
Example t_interface_should_parse_const_member : ok_with (parse_as e_ConstMember (str "const long name = 5;")) (str "") (fun x => is_none (ConstMember_attributes x) && text_eqb (ConstMember_identifier x) (str "name")) = true.
Proof. vm_compute. reflexivity. Qed.
(** src/mixin.rs:44: mixin_should_parse_attribute_mixin_member. *)
Example t_mixin_should_parse_attribute_mixin_member : ok_with (parse_as e_AttributeMixinMember (str "stringifier readonly attribute short name;")) (str "") (fun x => is_none (AMM_attributes x) && is_some (AMM_stringifier x) && is_some (AMM_readonly x) && text_eqb (AMM_identifier x) (str "name")) = true.
Proof. vm_compute. reflexivity. Qed.
(** src/mixin.rs:53: mixin_should_parse_operation_mixin_member. *)
Example t_mixin_should_parse_operation_mixin_member : ok_with (parse_as e_OperationMixinMember (str "short fnName(long a);")) (str "") (fun x => is_none (OMM_attributes x) && is_none (OMM_stringifier x) && is_some (OMM_identifier x)) = true.
Proof. vm_compute. reflexivity. Qed.
(** src/namespace.rs:50: namespace_should_parse_const_member. *)
Example t_namespace_should_parse_const_member : ok_with (parse_as e_ConstNamespaceMember (str "const long name = 5;")) (str "") (fun x => is_none (CNM_attributes x) && text_eqb (CNM_identifier x) (str "name")) = true.
Proof. vm_compute. reflexivity. Qed.
(** src/namespace.rs:57: namespace_should_parse_attribute_namespace_member. *)
Example t_namespace_should_parse_attribute_namespace_member : ok_with (parse_as e_AttributeNamespaceMember (str "readonly attribute short name;")) (str "") (fun x => is_none (ANM_attributes x) && text_eqb (ANM_identifier x) (str "name")) = true.
Proof. vm_compute. reflexivity. Qed.
(** src/namespace.rs:64: namespace_should_parse_operation_namespace_member. *)
Example t_namespace_should_parse_operation_namespace_member : ok_with (parse_as e_OperationNamespaceMember (str "short (long a, long b);")) (str "") (fun x => is_none (ONM_attributes x) && is_none (ONM_identifier x)) = true.
Proof. vm_compute. reflexivity. Qed.
(** src/lib.rs:251: lib_should_parse_includes_statement. *)
Example t_lib_should_parse_includes_statement : ok_with (parse_as e_IncludesStatementDefinition (str "first includes second;")) (str "") (fun x => is_none (IncludesStatement_attributes x) && text_eqb (IncludesStatement_lhs_identifier x) (str "first") && text_eqb (IncludesStatement_rhs_identifier x) (str "second")) = true.
Proof. vm_compute. reflexivity. Qed.
(** src/lib.rs:259: lib_should_parse_typedef. *)
Example t_lib_should_parse_typedef : ok_with (parse_as e_TypedefDefinition (str "typedef short Short;")) (str "") (fun x => is_none (Typedef_attributes x) && text_eqb (Typedef_identifier x) (str "Short")) = true.
Proof. vm_compute. reflexivity. Qed.
(** src/lib.rs:266: lib_should_parse_enum. *)
Example t_lib_should_parse_enum : ok_with (parse_as e_EnumDefinition (str "enum name { ""first"", ""second"" }; ")) (str "") (fun x => is_none (Enum_attributes x) && text_eqb (Enum_identifier x) (str "name") && Nat.eqb (length (Enum_values x)) 2) = true.
Proof. vm_compute. reflexivity. Qed.
(** src/lib.rs:274: lib_should_parse_dictionary. *)
Example t_lib_should_parse_dictionary : ok_with (parse_as e_DictionaryDefinition (str "dictionary A { long c; long g; };")) (str "") (fun x => is_none (Dictionary_attributes x) && text_eqb (Dictionary_identifier x) (str "A") && is_none (Dictionary_inheritance x) && Nat.eqb (length (Dictionary_members x)) 2) = true.
Proof. vm_compute. reflexivity. Qed.
(** src/lib.rs:283: lib_should_parse_dictionary_inherited. *)
Example t_lib_should_parse_dictionary_inherited : ok_with (parse_as e_DictionaryDefinition (str "dictionary C : B { long e; long f; };")) (str "") (fun x => is_none (Dictionary_attributes x) && text_eqb (Dictionary_identifier x) (str "C") && is_some (Dictionary_inheritance x) && Nat.eqb (length (Dictionary_members x)) 2) = true.
Proof. vm_compute. reflexivity. Qed.
(** src/lib.rs:292: lib_should_parse_partial_namespace. *)
Example t_lib_should_parse_partial_namespace : ok_with (parse_as e_PartialNamespaceDefinition (str "
        partial namespace VectorUtils {
            readonly attribute Vector unit;
            double dotProduct(Vector x, Vector y);
            Vector crossProduct(Vector x, Vector y);
        };
    ")) (str "") (fun x => is_none (PartialNamespace_attributes x) && text_eqb (PartialNamespace_identifier x) (str "VectorUtils") && Nat.eqb (length (PartialNamespace_members x)) 3) = true.
Proof. vm_compute. reflexivity. Qed.
(** src/lib.rs:306: lib_should_parse_partial_dictionary. *)
Example t_lib_should_parse_partial_dictionary : ok_with (parse_as e_PartialDictionaryDefinition (str "partial dictionary C { long e; long f; };")) (str "") (fun x => is_none (PartialDictionary_attributes x) && text_eqb (PartialDictionary_identifier x) (str "C") && Nat.eqb (length (PartialDictionary_members x)) 2) = true.
Proof. vm_compute. reflexivity. Qed.
(** src/lib.rs:314: lib_should_parse_partial_interface_mixin. *)
Example t_lib_should_parse_partial_interface_mixin : ok_with (parse_as e_PartialInterfaceMixinDefinition (str "
        partial interface mixin WindowSessionStorage {
          readonly attribute Storage sessionStorage;
        };
    ")) (str "") (fun x => is_none (PartialInterfaceMixin_attributes x) && text_eqb (PartialInterfaceMixin_identifier x) (str "WindowSessionStorage") && Nat.eqb (length (PartialInterfaceMixin_members x)) 1) = true.
Proof. vm_compute. reflexivity. Qed.
(** src/lib.rs:326: lib_should_parse_partial_interface. *)
Example t_lib_should_parse_partial_interface : ok_with (parse_as e_PartialInterfaceDefinition (str "
        partial interface Window {
          readonly attribute Storage sessionStorage;
        };
    ")) (str "") (fun x => is_none (PartialInterface_attributes x) && text_eqb (PartialInterface_identifier x) (str "Window") && Nat.eqb (length (PartialInterface_members x)) 1) = true.
Proof. vm_compute. reflexivity. Qed.
(** src/lib.rs:338: lib_should_parse_namespace. *)
Example t_lib_should_parse_namespace : ok_with (parse_as e_NamespaceDefinition (str "
        namespace VectorUtils {
          readonly attribute Vector unit;
          double dotProduct(Vector x, Vector y);
          Vector crossProduct(Vector x, Vector y);
        };
    ")) (str "") (fun x => is_none (Namespace_attributes x) && text_eqb (Namespace_identifier x) (str "VectorUtils") && Nat.eqb (length (Namespace_members x)) 3) = true.
Proof. vm_compute. reflexivity. Qed.
(** src/lib.rs:352: lib_should_parse_interface_mixin. *)
Example t_lib_should_parse_interface_mixin : ok_with (parse_as e_InterfaceMixinDefinition (str "
        interface mixin WindowSessionStorage {
          readonly attribute Storage sessionStorage;
        };
    ")) (str "") (fun x => is_none (InterfaceMixin_attributes x) && text_eqb (InterfaceMixin_identifier x) (str "WindowSessionStorage") && Nat.eqb (length (InterfaceMixin_members x)) 1) = true.
Proof. vm_compute. reflexivity. Qed.
(** src/lib.rs:364: lib_should_parse_interface. *)
Example t_lib_should_parse_interface : ok_with (parse_as e_InterfaceDefinition (str "
        interface Window {
          readonly attribute Storage sessionStorage;
        };
    ")) (str "") (fun x => is_none (Interface_attributes x) && text_eqb (Interface_identifier x) (str "Window") && Nat.eqb (length (Interface_members x)) 1) = true.
Proof. vm_compute. reflexivity. Qed.
(** src/lib.rs:376: lib_should_parse_callback_interface. *)
Example t_lib_should_parse_callback_interface : ok_with (parse_as e_CallbackInterfaceDefinition (str "
        callback interface Options {
          attribute DOMString? option1;
          attribute DOMString? option2;
          attribute long? option3;
        };
    ")) (str "") (fun x => is_none (CallbackInterface_attributes x) && text_eqb (CallbackInterface_identifier x) (str "Options") && Nat.eqb (length (CallbackInterface_members x)) 3) = true.
Proof. vm_compute. reflexivity. Qed.
(** src/lib.rs:390: lib_should_parse_callback. *)
Example t_lib_should_parse_callback : ok_with (parse_as e_CallbackDefinition (str "callback AsyncOperationCallback = undefined (DOMString status);")) (str "") (fun x => is_none (Callback_attributes x) && text_eqb (Callback_identifier x) (str "AsyncOperationCallback") && Nat.eqb (length (Callback_arguments x)) 1) = true.
Proof. vm_compute. reflexivity. Qed.
(** src/lib.rs:398: lib_should_parse_with_line_comments. *)
Example t_lib_should_parse_with_line_comments : ok_with (parse_as e_CallbackDefinition (str "
        // This is a comment
        callback AsyncOperationCallback = undefined (DOMString status);
    ")) (str "") (fun x => true) = true.
Proof. vm_compute. reflexivity. Qed.
(** src/lib.rs:406: lib_should_parse_with_block_comments. *)
Example t_lib_should_parse_with_block_comments : ok_with (parse_as e_CallbackDefinition (str "
        /* This is a comment */
        callback AsyncOperationCallback = undefined (DOMString status);
    ")) (str "") (fun x => true) = true.
Proof. vm_compute. reflexivity. Qed.
(** src/lib.rs:414: lib_should_parse_with_multiple_comments. *)
Example t_lib_should_parse_with_multiple_comments : ok_with (parse_as e_CallbackDefinition (str "
        // This is a comment
        // This is a comment
        // This is a comment

        // This is a comment
        callback AsyncOperationCallback = undefined (DOMString status);
    ")) (str "") (fun x => true) = true.
Proof. vm_compute. reflexivity. Qed.
(** src/types.rs:185: variants of ReturnType. *)
Example t_variants_ReturnType :
  ok_with (parse_as e_ReturnType (str "undefined")) [] (fun x => match x with ReturnType_Undefined => true | _ => false end) = true /\
  ok_with (parse_as e_ReturnType (str "any")) [] (fun x => match x with ReturnType_Type _ => true | _ => false end) = true.
Proof. vm_compute. tauto. Qed.
(** src/types.rs:192: variants of ConstType. *)
Example t_variants_ConstType :
  ok_with (parse_as e_ConstType (str "short")) [] (fun x => match x with ConstType_Integer _ => true | _ => false end) = true /\
  ok_with (parse_as e_ConstType (str "float")) [] (fun x => match x with ConstType_FloatingPoint _ => true | _ => false end) = true /\
  ok_with (parse_as e_ConstType (str "boolean")) [] (fun x => match x with ConstType_Boolean _ => true | _ => false end) = true /\
  ok_with (parse_as e_ConstType (str "byte")) [] (fun x => match x with ConstType_Byte _ => true | _ => false end) = true /\
  ok_with (parse_as e_ConstType (str "octet")) [] (fun x => match x with ConstType_Octet _ => true | _ => false end) = true /\
  ok_with (parse_as e_ConstType (str "name")) [] (fun x => match x with ConstType_Identifier _ => true | _ => false end) = true.
Proof. vm_compute. tauto. Qed.
(** src/types.rs:203: variants of NonAnyType. *)
Example t_variants_NonAnyType :
  ok_with (parse_as e_NonAnyType (str "Promise<long>")) [] (fun x => match x with NonAnyType_Promise _ => true | _ => false end) = true /\
  ok_with (parse_as e_NonAnyType (str "long")) [] (fun x => match x with NonAnyType_Integer _ => true | _ => false end) = true /\
  ok_with (parse_as e_NonAnyType (str "float")) [] (fun x => match x with NonAnyType_FloatingPoint _ => true | _ => false end) = true /\
  ok_with (parse_as e_NonAnyType (str "boolean")) [] (fun x => match x with NonAnyType_Boolean _ => true | _ => false end) = true /\
  ok_with (parse_as e_NonAnyType (str "byte")) [] (fun x => match x with NonAnyType_Byte _ => true | _ => false end) = true /\
  ok_with (parse_as e_NonAnyType (str "octet")) [] (fun x => match x with NonAnyType_Octet _ => true | _ => false end) = true /\
  ok_with (parse_as e_NonAnyType (str "ByteString")) [] (fun x => match x with NonAnyType_ByteString _ => true | _ => false end) = true /\
  ok_with (parse_as e_NonAnyType (str "DOMString")) [] (fun x => match x with NonAnyType_DOMString _ => true | _ => false end) = true /\
  ok_with (parse_as e_NonAnyType (str "USVString")) [] (fun x => match x with NonAnyType_USVString _ => true | _ => false end) = true /\
  ok_with (parse_as e_NonAnyType (str "sequence<short>")) [] (fun x => match x with NonAnyType_Sequence _ => true | _ => false end) = true /\
  ok_with (parse_as e_NonAnyType (str "object")) [] (fun x => match x with NonAnyType_Object _ => true | _ => false end) = true /\
  ok_with (parse_as e_NonAnyType (str "symbol")) [] (fun x => match x with NonAnyType_Symbol _ => true | _ => false end) = true /\
  ok_with (parse_as e_NonAnyType (str "Error")) [] (fun x => match x with NonAnyType_Error _ => true | _ => false end) = true /\
  ok_with (parse_as e_NonAnyType (str "ArrayBuffer")) [] (fun x => match x with NonAnyType_ArrayBuffer _ => true | _ => false end) = true /\
  ok_with (parse_as e_NonAnyType (str "DataView")) [] (fun x => match x with NonAnyType_DataView _ => true | _ => false end) = true /\
  ok_with (parse_as e_NonAnyType (str "Int8Array")) [] (fun x => match x with NonAnyType_Int8Array _ => true | _ => false end) = true /\
  ok_with (parse_as e_NonAnyType (str "Int16Array")) [] (fun x => match x with NonAnyType_Int16Array _ => true | _ => false end) = true /\
  ok_with (parse_as e_NonAnyType (str "Int32Array")) [] (fun x => match x with NonAnyType_Int32Array _ => true | _ => false end) = true /\
  ok_with (parse_as e_NonAnyType (str "Uint8Array")) [] (fun x => match x with NonAnyType_Uint8Array _ => true | _ => false end) = true /\
  ok_with (parse_as e_NonAnyType (str "Uint16Array")) [] (fun x => match x with NonAnyType_Uint16Array _ => true | _ => false end) = true /\
  ok_with (parse_as e_NonAnyType (str "Uint32Array")) [] (fun x => match x with NonAnyType_Uint32Array _ => true | _ => false end) = true /\
  ok_with (parse_as e_NonAnyType (str "Uint8ClampedArray")) [] (fun x => match x with NonAnyType_Uint8ClampedArray _ => true | _ => false end) = true /\
  ok_with (parse_as e_NonAnyType (str "Float32Array")) [] (fun x => match x with NonAnyType_Float32Array _ => true | _ => false end) = true /\
  ok_with (parse_as e_NonAnyType (str "Float64Array")) [] (fun x => match x with NonAnyType_Float64Array _ => true | _ => false end) = true /\
  ok_with (parse_as e_NonAnyType (str "ArrayBufferView")) [] (fun x => match x with NonAnyType_ArrayBufferView _ => true | _ => false end) = true /\
  ok_with (parse_as e_NonAnyType (str "BufferSource")) [] (fun x => match x with NonAnyType_BufferSource _ => true | _ => false end) = true /\
  ok_with (parse_as e_NonAnyType (str "FrozenArray<short>")) [] (fun x => match x with NonAnyType_FrozenArrayType _ => true | _ => false end) = true /\
  ok_with (parse_as e_NonAnyType (str "record<DOMString, short>")) [] (fun x => match x with NonAnyType_RecordType _ => true | _ => false end) = true /\
  ok_with (parse_as e_NonAnyType (str "mango")) [] (fun x => match x with NonAnyType_Identifier _ => true | _ => false end) = true.
Proof. vm_compute. tauto. Qed.
(** src/types.rs:237: variants of UnionMemberType. *)
Example t_variants_UnionMemberType :
  ok_with (parse_as e_UnionMemberType (str "byte")) [] (fun x => match x with UnionMemberType_Single _ => true | _ => false end) = true /\
  ok_with (parse_as e_UnionMemberType (str "([Clamp] unsigned long or byte)")) [] (fun x => match x with UnionMemberType_Union _ => true | _ => false end) = true.
Proof. vm_compute. tauto. Qed.
(** src/types.rs:244: variants of RecordKeyType. *)
Example t_variants_RecordKeyType :
  ok_with (parse_as e_RecordKeyType (str "DOMString")) [] (fun x => match x with RecordKeyType_DOM => true | _ => false end) = true /\
  ok_with (parse_as e_RecordKeyType (str "USVString")) [] (fun x => match x with RecordKeyType_USV => true | _ => false end) = true /\
  ok_with (parse_as e_RecordKeyType (str "ByteString")) [] (fun x => match x with RecordKeyType_Byte => true | _ => false end) = true.
Proof. vm_compute. tauto. Qed.
(** src/types.rs:272: variants of FloatingPointType. *)
Example t_variants_FloatingPointType :
  ok_with (parse_as e_FloatingPointType (str "float")) [] (fun x => match x with FloatingPointType_Float _ => true | _ => false end) = true /\
  ok_with (parse_as e_FloatingPointType (str "double")) [] (fun x => match x with FloatingPointType_Double _ => true | _ => false end) = true.
Proof. vm_compute. tauto. Qed.
(** src/types.rs:294: variants of IntegerType. *)
Example t_variants_IntegerType :
  ok_with (parse_as e_IntegerType (str "short")) [] (fun x => match x with IntegerType_Short _ => true | _ => false end) = true /\
  ok_with (parse_as e_IntegerType (str "long")) [] (fun x => match x with IntegerType_Long _ => true | _ => false end) = true /\
  ok_with (parse_as e_IntegerType (str "long long")) [] (fun x => match x with IntegerType_LongLong _ => true | _ => false end) = true.
Proof. vm_compute. tauto. Qed.
(** src/types.rs:317: variants of SingleType. *)
Example t_variants_SingleType :
  ok_with (parse_as e_SingleType (str "any")) [] (fun x => match x with SingleType_Any => true | _ => false end) = true /\
  ok_with (parse_as e_SingleType (str "Promise<short>")) [] (fun x => match x with SingleType_NonAny _ => true | _ => false end) = true.
Proof. vm_compute. tauto. Qed.
(** src/types.rs:324: variants of Type. *)
Example t_variants_Type :
  ok_with (parse_as e_Type (str "short")) [] (fun x => match x with Type_Single _ => true | _ => false end) = true /\
  ok_with (parse_as e_Type (str "(short or float)")) [] (fun x => match x with Type_Union _ => true | _ => false end) = true.
Proof. vm_compute. tauto. Qed.

(** src/term.rs:575-703: every term, alone, with spaces around it, and with something behind it.  ([generate_tests!] lists most
    terms; here are all of them.) *)
Definition terms : list term :=
  [OpenParen; CloseParen; OpenBracket; CloseBracket; OpenBrace; CloseBrace; Comma; Minus; Dot; Ellipsis; Colon;
   SemiColon; LessThan; Assign; GreaterThan; QMark; Asterisk; Or; Optional; Async; Attribute; Callback; Const;
   Deleter; Dictionary; Enum; Getter; Includes; Inherit; Interface; Iterable; Maplike; Namespace; Partial; Required;
   Setlike; Setter; Static; Stringifier; Typedef; Unrestricted; Symbol; NegInfinity; ByteString; DOMString;
   FrozenArray; Infinity; NaN; USVString; Any; Boolean; Byte; Double; False_; Float; Long; Null; Object; Octet;
   Sequence; Short; True_; Unsigned; Undefined; Record_; ArrayBuffer; DataView; Int8Array; Int16Array; Int32Array;
   Uint8Array; Uint16Array; Uint32Array; Uint8ClampedArray; Float32Array; Float64Array; ArrayBufferView; BufferSource;
   Promise; Error_; ReadOnly; Mixin; Implements; LegacyCaller; Constructor].
Example t_terms : forallb (fun t => ok_with (p_term t (str (term_text t))) [] (fun _ => true) &&
  ok_with (p_term t (str "  " ++ str (term_text t) ++ str "  ")) [] (fun _ => true) &&
  ok_with (p_term t (str (term_text t) ++ str "  anything")) (str "anything") (fun _ => true)) terms = true.
Proof. vm_compute. reflexivity. Qed.

(** src/types.rs: should_parse_union_member_type_attributed_union. *)
Example t_union_member_type_attributed_union : ok_with (parse_as e_UnionMemberType (str "([Clamp] byte or [Named] byte)")) []
  (fun x => match x with
            | UnionMemberType_Union (mkMayBeNull [UnionMemberType_Single (mkAttributedNonAnyType (Some _) _);
                                                  UnionMemberType_Single (mkAttributedNonAnyType (Some _) _)] _) => true
            | _ => false
            end) = true.
Proof. vm_compute. reflexivity. Qed.

(** The example in the documentation (src/lib.rs:10-17, 75-84, 97-107). *)
Example t_doc : match parse (str "
    interface Window {
        readonly attribute Storage sessionStorage;
    };
") with Parsed [Definition_Interface x] => text_eqb (Interface_identifier x) (str "Window") && Nat.eqb (length (Interface_members x)) 1 | _ => false end = true.
Proof. vm_compute. reflexivity. Qed.

(** tests/webidl.rs:56-113, with tests/defs/interface-constructor.webidl. *)
Example t_interface_constructor : match parse (str "interface InterfaceWithConstructor {
  [Throws]
  constructor(long a);
};
") with
  | Parsed [Definition_Interface (mkInterfaceDefinition None n None
      [InterfaceMember_Constructor (mkConstructorInterfaceMember (Some [ExtendedAttribute_NoArgs a])
        [Argument_Single (mkSingleArgument None None (mkAttributedType None
          (Type_Single (SingleType_NonAny (NonAnyType_Integer _)))) i None)])])] =>
      text_eqb n (str "InterfaceWithConstructor") && text_eqb a (str "Throws") && text_eqb i (str "a")
  | _ => false
  end = true.
Proof. vm_compute. reflexivity. Qed.
