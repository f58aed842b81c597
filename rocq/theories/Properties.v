(** * The properties of /verif/properties.jsonl.

    Only statements and concrete examples; the proofs are in the other files. *)
From Coq Require Import String Ascii NArith Arith Bool List Lia Permutation.
From Verif Require Import Source Crate Interp Embed SourceLex SourceProps SourceData SourceWt SourceOnto SourceFacts SourceTests SourceFiles SourceDocs SourceRegex SourceDecl SourceDecl2 SourceOrder Live SourceDerive SourceHash SourceNames SourceHygiene.
From Verif Require Import Nom Lex Ast Grammar Spec LexFacts NumFacts TokFacts RunFacts Shapes TermFacts Api ApiFacts LexProps
  Tok TokRun TokSound TokComplete TokMembers Shows Exact Print Nodes Items Cost Upper Linear Errors Lexer Bytes Utf8 Ren Frag Stream Words Scan Data Order Size WebIDL Standard Relaxed Decide Extra Attr Concat.
Import ListNotations.
Open Scope list_scope.

Definition is_ok {I A} (r : res I A) : bool := match r with Ok _ _ => true | _ => false end.

(** ** C01: every parser terminates *)
Theorem C01_terminates : forall b A (p : parser text A), Parser b A p -> forall s, p s <> Diverge.
Proof. exact Parser_terminates. Qed.
Theorem C01_parse_returns : forall raw, parse raw <> NoReturn.
Proof. exact parse_returns. Qed.
(** Doubly nested repetition, where every inner repetition can be empty; and a deep type. *)
Example C01_ex1 : Parser false _ (parse_as (e_Vec (e_Vec e_Definition))) /\
  parse_as (e_Vec (e_Vec e_Definition)) (str "typedef long A; x") <> Diverge.
Proof. split; [apply P_Impl; repeat econstructor|]. vm_compute. discriminate. Qed.
Example C01_ex2 : is_ok (parse_as e_Type (str "sequence<sequence<sequence<(long or Promise<any>)>>>")) = true.
Proof. vm_compute. reflexivity. Qed.

(** ** C02: the remaining input is a suffix of the input *)
Theorem C02_suffix : forall b A (p : parser text A), Parser b A p ->
  forall s rest v, p s = Ok rest v -> exists consumed, s = consumed ++ rest.
Proof. exact Parser_suffix. Qed.
Example C02_ex : parse_as e_Type (str "long long foo;") = Ok (str "foo;") (Type_Single (SingleType_NonAny
  (NonAnyType_Integer (mkMayBeNull (IntegerType_LongLong (mkLongLongType None)) None)))).
Proof. vm_compute. reflexivity. Qed.

(** ** C03: errors are recoverable and point into the input *)
Theorem C03_errors : forall b A (p : parser text A), Parser b A p ->
  forall s e, p s = Err e -> exists pos kind before, e = Error pos kind /\ s = before ++ pos.
Proof. exact Parser_error. Qed.
Example C03_ex : exists pos k, parse_as e_InterfaceMember (str "  readonly attribut long x;") = Err (Error pos k) /\
  Suf pos (str "  readonly attribut long x;").
Proof. eexists _, _. split; [vm_compute; reflexivity|]. exists []. reflexivity. Qed.

(** ** C04: lists of items never fail *)
Theorem C04_Vec : forall A (p : pexp A), Impl true A p -> forall s, exists items rest,
  parse_as (e_Vec p) s = Ok rest items /\ Chain (parse_as p) s items rest /\ Fails (parse_as p) rest.
Proof. exact (fun A p H s => Vec_spec A p s H). Qed.
Theorem C04_Definitions : forall s, exists defs rest,
  parse_as e_Definitions s = Ok rest defs /\ Chain (parse_as e_Definition) s defs rest /\ Fails (parse_as e_Definition) rest.
Proof. exact (fun s => Vec_spec _ _ s I_Definition). Qed.
Example C04_ex : match parse_as e_Definitions (str "typedef long A; enum E {}; typedef long B;") with
  | Ok rest defs => length defs = 1 /\ rest = str "enum E {}; typedef long B;"
  | _ => False
  end.
Proof. vm_compute. auto. Qed.

(** ** C05: [weedle::parse] returns [Ok] exactly when the whole input is consumed *)
Theorem C05_parse_ok : forall raw defs, parse raw = Parsed defs <-> parse_as e_Definitions raw = Ok [] defs.
Proof. exact parse_iff. Qed.
Theorem C05_otherwise_panics : forall raw, (forall defs, parse raw <> Parsed defs) -> parse raw = Panicked.
Proof. exact parse_panics. Qed.
(** "Malformed input is reported through [Err]": never. *)
Theorem C05_never_Err : forall raw e, parse raw <> Failed e.
Proof. exact parse_not_Failed. Qed.
Theorem C05_malformed_is_Err_refuted : exists raw, (forall defs, parse raw <> Parsed defs) /\ (forall e, parse raw <> Failed e).
Proof. exists (str "interface A {"). split; intros; vm_compute; discriminate. Qed.
Example C05_ex : exists defs, parse (str "enum E { ""a"", ""b"" };") = Parsed defs /\ length defs = 1.
Proof. eexists. split; [vm_compute; reflexivity|reflexivity]. Qed.

(** ** C06: soundness *)
Theorem C06_sound : forall raw defs, parse raw = Parsed defs ->
  exists ts, Toks raw ts /\ Sentence defs ts.
Proof. exact (fun raw defs H => match parse_sound raw defs H with ex_intro _ ts (conj HT (conj HS _)) => ex_intro _ ts (conj HT HS) end). Qed.
(** The accepted texts, exactly. *)
Theorem C06_exact : forall raw defs, parse raw = Parsed defs <->
  exists ts, Toks raw ts /\ Sentence defs ts /\ wf_Definitions defs.
Proof. exact parse_exact. Qed.
(** [Definitions::parse], with any rest. *)
Theorem C06_Definitions_exact : forall s rest defs, parse_as e_Definitions s = Ok rest defs <->
  (exists ts, Ats ts s rest /\ Conc (show_Definitions defs) ts [] /\ wf_Definitions defs) /\
  Fails (parse_as e_Definition) rest.
Proof. exact Definitions_exact. Qed.
Example C06_ex : exists defs, parse (str "/* c */ typedef sequence<long>? _typedef ; ") = Parsed defs /\
  Sentence defs [word "typedef"; word "sequence"; TPunct "<"; word "long"; TPunct ">"; TPunct "?"; TName true (str "typedef"); TPunct ";"].
Proof. eexists. split; [vm_compute; reflexivity|]. unfold Sentence. cbn. repeat constructor. Qed.

(** ** C07: completeness *)
Theorem C07_complete : forall defs ts raw, wf_Definitions defs -> Sentence defs ts -> Toks raw ts -> parse raw = Parsed defs.
Proof. exact (fun defs ts raw Hw HS HT => parse_complete raw ts defs HT HS Hw). Qed.
(** Every tree whose names and literals are spelled properly has a text. *)
Theorem C07_printed : forall defs, wf_Definitions defs -> wf_lexemes defs -> parse (print defs) = Parsed defs.
Proof. exact parse_print. Qed.
(** Which trees can be parsed. *)
Theorem C07_range : forall defs, (exists raw, parse raw = Parsed defs) <-> wf_Definitions defs /\ wf_lexemes defs.
Proof. exact parse_range. Qed.
Example C07_ex : wf_Definitions [Definition_IncludesStatement (mkIncludesStatementDefinition None (str "A") (str "includes"))] /\
  wf_lexemes [Definition_IncludesStatement (mkIncludesStatementDefinition None (str "A") (str "includes"))] /\
  print [Definition_IncludesStatement (mkIncludesStatementDefinition None (str "A") (str "includes"))] = str "_A includes _includes ;".
Proof.
  split; [repeat constructor|]. split; [|reflexivity]. unfold wf_lexemes. cbn [show_Definitions flat_map show_Definition show_attributes app].
  repeat apply Forall_cons; try apply Forall_nil; try exact Logic.I; cbn [lexical]; apply NameLex_dec; reflexivity.
Qed.

(** ** C08: blanks and comments do not matter *)
Theorem C08_layout : forall a b ts, Toks a ts -> Toks b ts -> parse a = parse b.
Proof. exact parse_same_toks. Qed.
(** A text has at most one token sequence. *)
Theorem C08_tokens_unique : forall raw ts ts', Toks raw ts -> Toks raw ts' -> ts = ts'.
Proof. exact Toks_unique. Qed.
(** Around a nonempty list of definitions. *)
Theorem C08_around : forall w w' text defs, parse text = Parsed defs -> defs <> [] -> Blank w -> Blank w' ->
  parse (w ++ text ++ w') = Parsed defs.
Proof. exact parse_blank_around. Qed.
Example C08_ex : parse (str "enum E{""a""};") = parse (str "  enum /* */ E { ""a"" } ; ") /\
  exists defs, parse (str "enum E{""a""};") = Parsed defs.
Proof. split; [vm_compute; reflexivity|]. eexists. vm_compute. reflexivity. Qed.

(** ** C09: a text is the concrete syntax of at most one tree *)
Theorem C09_unambiguous : forall raw ts ts' d d', Toks raw ts -> Toks raw ts' -> Sentence d ts -> Sentence d' ts' ->
  wf_Definitions d -> wf_Definitions d' -> d = d'.
Proof.
  exact (fun raw ts ts' d d' HT HT' HS HS' Hw Hw' =>
    Sentence_unique ts d d' HS (eq_ind_r (fun x => Sentence d' x) HS' (Toks_unique raw ts ts' HT HT')) Hw Hw').
Qed.
(** Without the rule for keyword clashes it would be ambiguous: [typedef includes X;]. *)
Example C09_ex : exists x y, x <> y /\ parse (str "typedef includes X;") = Parsed [x] /\ parse (str "_typedef includes X;") = Parsed [y].
Proof. eexists _, _. split; [|split; vm_compute; reflexivity]. discriminate. Qed.

(** ** C10: print and parse again *)
Theorem C10_reparse : forall raw defs, parse raw = Parsed defs -> parse (print defs) = Parsed defs.
Proof. exact parse_print_parse. Qed.
Theorem C10_print_injective : forall d d', wf_Definitions d -> wf_lexemes d -> wf_Definitions d' -> wf_lexemes d' ->
  print d = print d' -> d = d'.
Proof. exact print_injective. Qed.
Example C10_ex : exists defs, parse (str "[A=(b,c)] interface X{readonly attribute long long y;};") = Parsed defs /\
  print defs = str "[ _A = ( _b , _c ) ] interface _X { readonly attribute long long _y ; } ;" /\
  parse (print defs) = Parsed defs.
Proof. eexists. split; [vm_compute; reflexivity|]. split; vm_compute; reflexivity. Qed.

(** ** C11: every item consumes input *)
Theorem C11_progress : forall A (p : parser text A), Parser true A p ->
  forall s rest v, p s = Ok rest v -> length rest < length s.
Proof. exact Parser_consumes. Qed.
(** Hence the repetition combinators never return their own error. *)
Theorem C11_no_many0_error : forall A (p : pexp A), Impl true A p -> forall s e, parse_as (e_Vec p) s <> Err e.
Proof. exact Vec_not_Err. Qed.
Theorem C11_no_separated_list_error : forall A S (p : pexp A) (sep : pexp S), Impl true A p -> Impl true S sep ->
  forall s e, parse_as (e_PunctuatedBy p sep) s <> Err e.
Proof. exact Punctuated_not_Err. Qed.
(** For lists of lists it can happen. *)
Example C11_ex : exists pos, parse_as (e_Vec (e_Vec e_Definition)) (str "x") = Err (Error pos KMany0).
Proof. eexists. vm_compute. reflexivity. Qed.
Example C11_ex2 : Impl true _ e_Argument /\ Impl true _ (T_ Comma) /\
  is_ok (parse_as (e_PunctuatedBy e_Argument (T_ Comma)) (str "long a, float b")) = true.
Proof. repeat split; constructor || vm_compute; reflexivity. Qed.

(** ** C12: identifiers *)
Theorem C12_identifier : forall s rest n, p_Identifier s = Ok rest n <->
  exists w u w', s = w ++ u ++ n ++ w' ++ rest /\ Blank w /\ (u = [] \/ u = [95%N]) /\ NameLex n /\
    name_ends (w' ++ rest) /\ Blank w' /\ NoBlank rest.
Proof. exact p_Identifier_ok. Qed.
Theorem C12_identifier_fails : forall s w b, s = w ++ b -> Blank w -> NoBlank b ->
  Fails p_Identifier s <-> forall u n y, (u = [] \/ u = [95%N]) -> NameLex n -> b <> u ++ n ++ y.
Proof. exact Identifier_fails. Qed.
Example C12_ex : p_Identifier (str " /* c */ _foo-Bar_9  ;x") = Ok (str ";x") (str "foo-Bar_9").
Proof. vm_compute. reflexivity. Qed.
Example C12_ex2 : Fails p_Identifier (str " __foo").
Proof. eexists _, _. vm_compute. reflexivity. Qed.

(** ** C13: keyword boundaries *)
Theorem C13_keyword : forall t s rest, term_is_name t = true ->
  p_term t s = Ok rest tt <->
  exists w w', s = w ++ str (term_text t) ++ w' ++ rest /\ Blank w /\ name_ends (w' ++ rest) /\ Blank w' /\ NoBlank rest.
Proof. exact (fun t s rest H => keyword_spec t s rest H). Qed.
Example C13_ex1 : is_ok (p_term DOMString (str "DOMStringMap")) = false.
Proof. vm_compute. reflexivity. Qed.
(** e-acute (U+00E9) ends a keyword *)
Example C13_ex2 : p_term DOMString (str "DOMString" ++ [233%N]) = Ok [233%N] tt.
Proof. vm_compute. reflexivity. Qed.
(** There are 68 keyword terms. *)
Theorem C13_count : exists l, NoDup l /\ length l = 68 /\ forall t, In t l <-> term_is_name t = true.
Proof. exact keyword_count. Qed.

(** ** C14: terms exclude each other *)
Theorem C14_exclusive : forall t u s r r', p_term t s = Ok r tt -> p_term u s = Ok r' tt ->
  t = u \/ In (t, u) [(Dot, Ellipsis); (Ellipsis, Dot); (Minus, NegInfinity); (NegInfinity, Minus)].
Proof. exact (fun t u s r r' => terms_exclusive t u s r r' tt tt). Qed.
Theorem C14_keywords_exclusive : forall t u s r r', term_is_name t = true -> term_is_name u = true ->
  p_term t s = Ok r tt -> p_term u s = Ok r' tt -> t = u /\ r = r'.
Proof. exact keywords_exclusive. Qed.
Example C14_ex : is_ok (p_term Dot (str "...")) = true /\ is_ok (p_term Ellipsis (str "...")) = true /\
  is_ok (p_term Minus (str "-Infinity")) = true /\ is_ok (p_term NegInfinity (str "-Infinity")) = true.
Proof. vm_compute. auto. Qed.

(** ** C15: decimal and octal literals, kinds of integers *)
Theorem C15_dec : forall i r s, p_DecLit i = Ok r s <-> exists w w', i = w ++ s ++ w' ++ r /\ Blank w /\
  Longest DecLex (s ++ w' ++ r) s (w' ++ r) /\ Blank w' /\ NoBlank r.
Proof. exact p_DecLit_longest. Qed.
Theorem C15_oct : forall i r s, p_OctLit i = Ok r s <-> exists w w', i = w ++ s ++ w' ++ r /\ Blank w /\
  Longest OctLex (s ++ w' ++ r) s (w' ++ r) /\ Blank w' /\ NoBlank r.
Proof. exact p_OctLit_longest. Qed.
Theorem C15_integer : forall i r l, p_IntegerLit i = Ok r l <-> exists w w',
  i = w ++ int_text l ++ w' ++ r /\ Blank w /\
  Longest (match l with IntegerLit_Dec _ => DecLex | IntegerLit_Hex _ => HexLex | IntegerLit_Oct _ => OctLex end)
          (int_text l ++ w' ++ r) (int_text l) (w' ++ r) /\
  (forall s, l = IntegerLit_Oct s -> forall x y, int_text l ++ w' ++ r = x ++ y -> ~ HexLex x) /\ Blank w' /\ NoBlank r.
Proof. exact IntegerLit_spec. Qed.
(** Decimal and octal (and decimal and hexadecimal) literals start differently. *)
Theorem C15_dec_disjoint : forall s s' y y', DecLex s -> OctLex s' \/ HexLex s' -> s ++ y <> s' ++ y'.
Proof. exact dec_disjoint. Qed.
Example C15_ex : p_IntegerLit (str "-10;") = Ok (str ";") (IntegerLit_Dec (str "-10")) /\
  p_IntegerLit (str "-017 8") = Ok (str "8") (IntegerLit_Oct (str "-017")) /\
  p_IntegerLit (str "0") = Ok [] (IntegerLit_Oct (str "0")) /\
  p_IntegerLit (str "0xFFg") = Ok (str "g") (IntegerLit_Hex (str "0xFF")).
Proof. vm_compute. auto. Qed.

(** ** C16: hexadecimal literals *)
Theorem C16_hex : forall i r s, p_HexLit i = Ok r s <-> exists w w', i = w ++ s ++ w' ++ r /\ Blank w /\
  Longest HexLex (s ++ w' ++ r) s (w' ++ r) /\ Blank w' /\ NoBlank r.
Proof. exact p_HexLit_longest. Qed.
(** -?0[Xx][0-9A-Fa-f]+, as documented *)
Definition DocHexLex (s : text) : Prop := exists m x w,
  s = m ++ 48%N :: x :: w /\ Sign m /\ (x = 88%N \/ x = 120%N) /\ w <> [] /\ Forall hexdigit w.
Theorem C16_hex_documented_refuted : exists i r s, p_HexLit i = Ok r s /\ ~ DocHexLex s.
Proof.
  exists (str "0x"), [], (str "0x"). split; [vm_compute; reflexivity|].
  intros (m & x & w & E & [->| ->] & _ & Hw & _); [|discriminate]. destruct w; [congruence|discriminate].
Qed.
Example C16_ex : p_HexLit (str " -0XaF09 ;") = Ok (str ";") (str "-0XaF09").
Proof. vm_compute. reflexivity. Qed.

(** ** C17: floats *)
Theorem C17_float : forall i r s, p_FloatValueLit i = Ok r s <-> exists w w', i = w ++ s ++ w' ++ r /\ Blank w /\
  Longest FloatLex (s ++ w' ++ r) s (w' ++ r) /\ Blank w' /\ NoBlank r.
Proof. exact p_FloatValueLit_longest. Qed.
Theorem C17_float_fails : forall i w b, i = w ++ b -> Blank w -> NoBlank b ->
  Fails p_FloatValueLit i <-> forall s y, FloatLex s -> b <> s ++ y.
Proof. exact Float_fails. Qed.
Theorem C17_not_integer : forall s, FloatLex s -> forall l, IntLex l -> int_text l <> s.
Proof. exact Float_not_integer. Qed.
Example C17_ex : p_FloatValueLit (str "-.5e+10x") = Ok (str "x") (str "-.5e+10") /\
  p_FloatValueLit (str "1.e") = Ok (str "e") (str "1.") /\
  p_FloatValueLit (str "12E3") = Ok [] (str "12E3") /\ Fails p_FloatValueLit (str "12").
Proof. vm_compute. repeat split; auto. eexists _, _; reflexivity. Qed.

(** ** C18: strings *)
Theorem C18_string : forall i r s, p_StringLit i = Ok r s <->
  exists w w', i = w ++ 34%N :: s ++ 34%N :: w' ++ r /\ Blank w /\ ~ In 34%N s /\ Blank w' /\ NoBlank r.
Proof. exact p_StringLit_ok. Qed.
Example C18_ex : p_StringLit (str " ""a // \ b /*""  /* */,") = Ok (str ",") (str "a // \ b /*").
Proof. vm_compute. reflexivity. Qed.

(** ** C19: blanks *)
Theorem C19_blank : forall i, exists w r, sp i = Ok r w /\ i = w ++ r /\ Blank w /\ NoBlank r.
Proof. exact sp_spec. Qed.
(** The split is unique. *)
Theorem C19_unique : forall w r w' r', Blank w -> Blank w' -> NoBlank r -> NoBlank r' -> w ++ r = w' ++ r' -> w = w' /\ r = r'.
Proof. exact (fun w r w' r' Hw Hw' Hr Hr' E => Blank_unique w Hw w' r r' Hw' Hr Hr' E). Qed.
Example C19_ex : sp (str "  /* a * / ** */ /x") = Ok (str "/x") (str "  /* a * / ** */ ").
Proof. vm_compute. reflexivity. Qed.

(** ** C20: an open comment at the very end *)
Theorem C20_trailing_comment_refuted : exists t, parse t = Panicked /\ exists defs, parse (t ++ [10%N]) = Parsed defs /\ defs <> [].
Proof.
  exists (str "typedef long A; // the end"). split; [vm_compute; reflexivity|].
  eexists. split; [vm_compute; reflexivity|discriminate].
Qed.
(** It always happens. *)
Theorem C20_line : forall text defs c, parse text = Parsed defs -> ~ In 10%N c -> parse (text ++ 47%N :: 47%N :: c) = Panicked.
Proof. exact (fun text defs c H Hc => open_comment_panics text defs _ H (open_line_NoBlank c Hc)). Qed.
(** With the newline the comment is ignored. *)
Theorem C20_closed : forall text defs c, parse text = Parsed defs -> defs <> [] -> ~ In 10%N c ->
  parse (text ++ 47%N :: 47%N :: c ++ [10%N]) = Parsed defs.
Proof. exact closed_comment. Qed.
(** Block comments that are not closed. *)
Theorem C20_block : forall text defs c, parse text = Parsed defs -> (forall x y, c <> x ++ 42%N :: 47%N :: y) ->
  parse (text ++ 47%N :: 42%N :: c) = Panicked.
Proof. exact (fun text defs c H Hc => open_comment_panics text defs _ H (open_block_NoBlank c Hc)). Qed.

(** ** C21: texts of blanks only *)
Theorem C21_blank : forall i, Blank i -> parse i = match i with [] => Parsed [] | _ => Panicked end.
Proof. exact parse_blank. Qed.
Theorem C21_blank_accepted_refuted : exists i, Blank i /\ forall defs, parse i <> Parsed defs.
Proof. exists [32%N]. split; [apply Blank_chars; constructor; [unfold blank_char; auto|constructor]|]. intros; vm_compute; discriminate. Qed.

(** ** C22, C23: separated lists *)
Theorem C22_punctuated : forall A S (p : pexp A) (sep : pexp S), Impl true A p -> Impl true S sep -> forall s, exists l rest,
  parse_as (e_PunctuatedBy p sep) s = Ok rest l /\
  ((l = [] /\ rest = s /\ Fails (parse_as p) s) \/
   exists a s' l', l = a :: l' /\ parse_as p s = Ok s' a /\ SepChain (parse_as sep) (parse_as p) s' l' rest /\
    (Fails (parse_as sep) rest \/ exists s'' x, parse_as sep rest = Ok s'' x /\ Fails (parse_as p) s'')).
Proof. exact (fun A S p sep Hp Hs s => Punctuated_spec A S p sep s Hp Hs). Qed.
Theorem C23_punctuated_non_empty : forall A S (p : pexp A) (sep : pexp S), Impl true A p -> Impl true S sep -> forall s,
  (Fails (parse_as p) s /\ Fails (parse_as (e_PunctuatedNonEmptyBy p sep)) s) \/
  exists a l s' s'' rest, parse_as (e_PunctuatedNonEmptyBy p sep) s = Ok rest (a :: l) /\
   parse_as p s = Ok s' a /\ SepChain (parse_as sep) (parse_as p) s' l s'' /\
   ((Fails (parse_as sep) s'' /\ rest = s'') \/ exists x, parse_as sep s'' = Ok rest x /\ Fails (parse_as p) rest).
Proof. exact (fun A S p sep Hp Hs s => PunctuatedNonEmpty_spec A S p sep s Hp Hs). Qed.
(** The lists of the grammar are instances of these. *)
Theorem C22_instances : forall A (p : pexp A) c, e_Punctuated p c = e_PunctuatedBy p (T_ c).
Proof. exact Punctuated_instance. Qed.
Theorem C23_instances : forall A (p : pexp A) c, e_PunctuatedNonEmpty p c = e_PunctuatedNonEmptyBy p (T_ c).
Proof. exact PunctuatedNonEmpty_instance. Qed.
Theorem C23_enum : forall raw defs e, parse raw = Parsed defs -> In (Definition_Enum e) defs -> Enum_values e <> [].
Proof. exact enum_nonempty. Qed.
Example C22_ex : parse_as e_IdentifierList (str "a, b ,c,;") = Ok (str ",;") [str "a"; str "b"; str "c"].
Proof. vm_compute. reflexivity. Qed.
Example C23_ex : parse_as e_EnumValueList (str """a"", ""b"" , }") = Ok (str "}") [str "a"; str "b"] /\
  Fails (parse_as e_EnumValueList) (str ", }").
Proof. split; [vm_compute; reflexivity|]. eexists _, _; vm_compute; reflexivity. Qed.

Example C23_ex2 : exists e, parse (str "enum A { ""a"" , };") = Parsed [Definition_Enum e] /\ Enum_values e = [str "a"].
Proof. eexists. split; vm_compute; reflexivity. Qed.

(** ** C24: a default value implies an optional argument *)
Theorem C24_default_optional : forall A (p : pexp A) nodes, Tree A p nodes -> forall s rest a, parse_as p s = Ok rest a ->
  forall at_ o t i d, In (NArgument (Argument_Single (mkSingleArgument at_ o t i (Some d)))) (nodes a) -> o <> None.
Proof. exact default_optional. Qed.
(** An attribute of an argument of an attribute. *)
Example C24_ex : exists rest defs at_ t i d,
  parse_as e_Definitions (str "[A([B(optional long x = 1)] float y)] typedef long Z;") = Ok rest defs /\
  In (NArgument (Argument_Single (mkSingleArgument at_ (Some tt) t i (Some d)))) (nodes_Definitions defs).
Proof. eexists _, _, _, _, _, _. split; [vm_compute; reflexivity|]. cbn. right. left. reflexivity. Qed.

(** ** C25: attributes before an argument belong to the argument *)
Theorem C25_attributes : forall A (p : pexp A) nodes, Tree A p nodes -> forall s rest a, parse_as p s = Ok rest a ->
  forall ta t i d, In (NArgument (Argument_Single (mkSingleArgument None None (mkAttributedType ta t) i d))) (nodes a) -> ta = None.
Proof. exact argument_attributes. Qed.
Example C25_ex : exists a t i, parse_as e_Argument (str "[Clamp] long x") =
  Ok [] (Argument_Single (mkSingleArgument (Some [a]) None (mkAttributedType None t) i None)).
Proof. eexists _, _, _. vm_compute. reflexivity. Qed.
(** After [optional] they belong to the type. *)
Example C25_ex2 : exists a t i, parse_as e_Argument (str "optional [Clamp] long x") =
  Ok [] (Argument_Single (mkSingleArgument None (Some tt) (mkAttributedType (Some [a]) t) i None)).
Proof. eexists _, _, _. vm_compute. reflexivity. Qed.

(** ** C26: record keys *)
Theorem C26_record_keys : forall A (p : pexp A) nodes, Tree A p nodes -> forall s rest a, parse_as p s = Ok rest a ->
  forall x, In (NRecordKey (RecordKeyType_NonAny x)) (nodes a) ->
  (forall m, x <> NonAnyType_ByteString m) /\ (forall m, x <> NonAnyType_DOMString m) /\ (forall m, x <> NonAnyType_USVString m).
Proof. exact record_keys. Qed.
Example C26_ex : exists q t, parse_as e_Type (str "record<DOMString, record<Foo, long>>") =
  Ok [] (Type_Single (SingleType_NonAny (NonAnyType_RecordType (mkMayBeNull (mkRecordType RecordKeyType_DOM t) q)))) /\
  In (NRecordKey (RecordKeyType_NonAny (NonAnyType_Identifier (mkMayBeNull (str "Foo") None)))) (nodes_Type t).
Proof. eexists _, _. split; [vm_compute; reflexivity|]. cbn. auto. Qed.
(** A nullable string type is not a string key. *)
Example C26_ex2 : is_ok (parse_as e_RecordType (str "record<DOMString?, long>")) = false.
Proof. vm_compute. reflexivity. Qed.

(** ** C27: integer types *)
Theorem C27_integer_type : forall s rest t, parse_as e_IntegerType s = Ok rest t <->
  Ats (map word (integer_words t)) s rest /\
  match t with IntegerType_Long _ => forall r', ~ At (word "long") rest r' | _ => True end.
Proof. exact IntegerType_spec. Qed.
Example C27_ex : parse_as e_IntegerType (str "unsigned long longs") = Ok (str "longs") (IntegerType_Long (mkLongType (Some tt))) /\
  parse_as e_IntegerType (str "long long long") = Ok (str "long") (IntegerType_LongLong (mkLongLongType None)) /\
  Fails (parse_as e_IntegerType) (str "unsigned x").
Proof. repeat split; try (vm_compute; reflexivity). eexists _, _; vm_compute; reflexivity. Qed.

(** ** C28: the nullable marker *)
Theorem C28_nullable : forall b (A : Set) (p : pexp A), Impl b A p -> forall s rest m,
  parse_as (e_MayBeNull p) s = Ok rest m <->
  exists s' t, parse_as p s = Ok s' t /\
   ((p_term QMark s' = Ok rest tt /\ m = mkMayBeNull t (Some tt)) \/
    (Fails (p_term QMark) s' /\ rest = s' /\ m = mkMayBeNull t None)).
Proof. exact (fun b A p H s rest m => MayBeNull_spec b A p s rest m H). Qed.
Example C28_ex : exists t, parse_as (e_MayBeNull e_IntegerType) (str "short ? ? x") = Ok (str "? x") (mkMayBeNull t (Some tt)).
Proof. eexists. vm_compute. reflexivity. Qed.

(** [any] and [Promise] types are read up to the word or the closing bracket, whatever follows: a [?] is left. *)
Theorem C28_any : forall s rest, parse_as e_Type s = Ok rest (Type_Single SingleType_Any) <-> At (word "any") s rest.
Proof. exact any_exact. Qed.
Theorem C28_promise : forall s rest t,
  parse_as e_Type s = Ok rest (Type_Single (SingleType_NonAny (NonAnyType_Promise (mkPromiseType t)))) <->
  exists s1 s2 s3, At (word "Promise") s s1 /\ At (TPunct "<") s1 s2 /\ parse_as e_ReturnType s2 = Ok s3 t /\ At (TPunct ">") s3 rest.
Proof. exact promise_exact. Qed.
(** In unions and as the key of a record the word [any] is a name, and takes a [?]. *)
Theorem C28_any_word_refuted :
  (exists defs, parse (str "typedef (any? or long) A;") = Parsed defs) /\ (exists defs, parse (str "typedef record<any?, long> A;") = Parsed defs).
Proof. split; eexists; vm_compute; reflexivity. Qed.
Example C28_ex2 : parse_as e_Type (str "any? x") = Ok (str "? x") (Type_Single SingleType_Any) /\
  (exists t, parse_as e_Type (str "Promise<undefined> ? x") = Ok (str "? x") (Type_Single (SingleType_NonAny (NonAnyType_Promise t)))) /\
  parse (str "typedef any? A;") = Panicked /\ parse (str "typedef Promise<long>? A;") = Panicked.
Proof. split; [vm_compute; reflexivity|]. split; [eexists; vm_compute; reflexivity|]. split; vm_compute; reflexivity. Qed.

(** ** C29: the kind of a definition *)
Theorem C29_kind : forall s rest d, parse_as e_Definition s = Ok rest d -> exists k x,
  d = def_variant k x /\ parse_as (def_parser k) s = Ok rest x /\
  exists s1 a ts s2, parse_as e_attributes s = Ok s1 a /\ lead k ts /\ Ats ts s1 s2.
Proof. exact Definition_kind_lead. Qed.
(** The leading tokens decide, but for [typedef includes X;] and [typedef implements X;]. *)
Theorem C29_decided : forall k k' ts ts' s s1 s2, lead k ts -> lead k' ts' -> Ats ts s s1 -> Ats ts' s s2 ->
  k = k' \/ typedef_clash k k' \/ typedef_clash k' k.
Proof. exact lead_decides. Qed.
(** No other alternative matches, in any order of the alternatives. *)
Theorem C29_exclusive : forall k k' s r r' x x', parse_as (def_parser k) s = Ok r x -> parse_as (def_parser k') s = Ok r' x' ->
  k = k' \/ typedef_clash k k' \/ typedef_clash k' k.
Proof. exact def_exclusive. Qed.
Theorem C29_takes : forall k s rest x, parse_as (def_parser k) s = Ok rest x ->
  parse_as e_Definition s = Ok rest (def_variant k x) \/
  (typedef_clash KTypedef k /\ exists rest' y, parse_as e_Definition s = Ok rest' (Definition_Typedef y) /\
    parse_as e_TypedefDefinition s = Ok rest' y).
Proof. exact Definition_takes. Qed.
(** The exception is real. *)
Theorem C29_exclusive_refuted : exists s r x y, parse_as e_TypedefDefinition s = Ok r x /\
  parse_as e_IncludesStatementDefinition s = Ok r y.
Proof. exists (str "typedef includes X;"). eexists _, _, _. split; vm_compute; reflexivity. Qed.
Example C29_ex : exists x y z, parse (str "interface mixin { }; callback interface = any (); interface mixin M { };") =
  Parsed [Definition_Interface x; Definition_Callback y; Definition_InterfaceMixin z].
Proof. eexists _, _, _. vm_compute. reflexivity. Qed.

(** ** C30: members *)
Theorem C30_interface : forall s rest m, parse_as e_InterfaceMember s = Ok rest m <->
  exists ts, Ats ts s rest /\ Conc (show_InterfaceMember m) ts [] /\ wf_InterfaceMember m.
Proof. exact InterfaceMember_exact. Qed.
Theorem C30_mixin : forall s rest m, parse_as e_MixinMember s = Ok rest m <->
  exists ts, Ats ts s rest /\ Conc (show_MixinMember m) ts [] /\ wf_MixinMember m.
Proof. exact MixinMember_exact. Qed.
Theorem C30_namespace : forall s rest m, parse_as e_NamespaceMember s = Ok rest m <->
  exists ts, Ats ts s rest /\ Conc (show_NamespaceMember m) ts [] /\ wf_NamespaceMember m.
Proof. exact NamespaceMember_exact. Qed.
Theorem C30_dictionary : forall s rest m, parse_as e_DictionaryMember s = Ok rest m <->
  exists ts, Ats ts s rest /\ Conc (show_DictionaryMember m) ts [] /\ wf_DictionaryMember m.
Proof. exact DictionaryMember_exact. Qed.
Theorem C30_definition : forall s rest d, parse_as e_Definition s = Ok rest d <->
  exists ts, Ats ts s rest /\ Conc (show_Definition d) ts [] /\ wf_Definition d.
Proof. exact Definition_exact. Qed.
(** The same words as an operation and as their own member. *)
Example C30_ex : exists a b c d e f,
  parse_as e_InterfaceMembers (str "iterable<long>; iterable iterable(); setlike<any>; setlike (); stringifier; stringifier any (); }") =
  Ok (str "}") [InterfaceMember_Iterable a; InterfaceMember_Operation b; InterfaceMember_Setlike c; InterfaceMember_Operation d;
                InterfaceMember_Stringifier e; InterfaceMember_Operation f].
Proof. eexists _, _, _, _, _, _. vm_compute. reflexivity. Qed.

(** ** C31: concatenation *)
Theorem C31_concatenation : forall a b x y, parse a = Parsed x -> parse b = Parsed y -> parse (a ++ b) = Parsed (x ++ y).
Proof. exact parse_app. Qed.
(** Every division of the definitions comes from a division of the text. *)
Theorem C31_division : forall raw x y, parse raw = Parsed (x ++ y) ->
  exists a b, raw = a ++ b /\ parse a = Parsed x /\ parse b = Parsed y.
Proof. exact parse_cut. Qed.
Example C31_ex : exists x y, parse (str "typedef long A;") = Parsed [x] /\ parse (str "A includes B;") = Parsed [y] /\
  parse (str "typedef long A;A includes B;") = Parsed [x; y].
Proof. eexists _, _. repeat split; vm_compute; reflexivity. Qed.

(** ** C32: names and literals are pieces of the text *)
Theorem C32_slices : forall raw defs, parse raw = Parsed defs -> Slices (lexemes defs) raw.
Proof. exact parse_Slices. Qed.
Example C32_ex : exists defs, parse (str "dictionary D { required long _x; DOMString s = ""abc""; float f = -1.5; };") = Parsed defs /\
  lexemes defs = [str "D"; str "x"; str "s"; str "abc"; str "f"; str "-1.5"].
Proof. eexists. split; vm_compute; reflexivity. Qed.

(** ** C33: ASCII *)
Theorem C33_tokens : forall raw defs, parse raw = Parsed defs -> exists ts, Toks raw ts /\
  Forall (fun t => (exists s, t = TStr s) \/ Forall ascii_char (spell t)) ts.
Proof. exact parse_ascii. Qed.
Theorem C33_pieces : forall raw defs, parse raw = Parsed defs -> exists ps, raw = concat ps /\ Forall piece ps.
Proof. exact parse_pieces. Qed.
Example C33_ex : (exists defs, parse (str "enum E { """ ++ [233%N] ++ str """ /*" ++ [233%N] ++ str "*/ };") = Parsed defs) /\
  parse (str "enum E" ++ [233%N] ++ str " { ""a"" };") = Panicked.
Proof. split; [eexists|]; vm_compute; reflexivity. Qed.

(** ** C34: unions *)
Theorem C34_two_members_refuted : exists raw defs l, parse raw = Parsed defs /\ In (NUnion l) (nodes_Definitions defs) /\ length l < 2.
Proof. exists (str "typedef () A;"). eexists _, _. split; [vm_compute; reflexivity|]. split; [cbn; left; reflexivity|cbn; auto]. Qed.
Theorem C34_one_member_refuted : exists raw defs l, parse raw = Parsed defs /\ In (NUnion l) (nodes_Definitions defs) /\ length l = 1.
Proof. exists (str "typedef (long) A;"). eexists _, _. split; [vm_compute; reflexivity|]. split; [cbn; left; reflexivity|reflexivity]. Qed.

(** ** C35: semicolons *)
Theorem C35_last : forall raw defs ts, parse raw = Parsed defs -> Toks raw ts ->
  closers 0 ts = length defs /\ (defs <> [] -> exists init, ts = init ++ [TPunct ";"]).
Proof. exact parse_closers. Qed.
Theorem C35_each : forall raw defs, parse raw = Parsed defs -> exists tss, Toks raw (concat tss) /\
  Forall2 (fun d us => Conc (show_Definition d) us [] /\ closers 0 us = 1 /\ exists init, us = init ++ [TPunct ";"]) defs tss.
Proof. exact parse_semicolons. Qed.
Example C35_ex : closers 0 [word "namespace"; word "N"; TPunct "{"; word "const"; word "long"; word "x"; TPunct "="; word "y";
  TPunct ";"; TPunct "}"; TPunct ";"] = 1.
Proof. reflexivity. Qed.

(** ** C36: escaped identifiers *)
Theorem C36_escaped : forall n rest, NameLex n -> name_ends rest ->
  (exists w r', rest = w ++ r' /\ Blank w /\ NoBlank r' /\ p_Identifier (95%N :: n ++ rest) = Ok r' n) /\
  (forall t, Fails (p_term t) (95%N :: n ++ rest)).
Proof. exact escaped_spec. Qed.
Example C36_ex : p_Identifier (str "_interface {") = Ok (str "{") (str "interface") /\
  is_ok (p_term Interface (str "_interface {")) = false.
Proof. vm_compute. auto. Qed.

(** ** C37: running time *)
(** [parse_steps] counts the calls of the lexical layer and of recursive parsers.  It is not bounded by a polynomial, even on
    accepted texts. *)
Theorem C37_polynomial_refuted : forall c d, exists text, (exists defs, parse text = Parsed defs) /\
  c * length text ^ d + c < parse_steps text.
Proof. exact steps_not_polynomial. Qed.
Theorem C37_exponential : forall k, exists text, length text <= 20 * k + 22 /\ (exists defs, parse text = Parsed defs) /\
  2 ^ k <= parse_steps text.
Proof. exact steps_exponential. Qed.
(** Each level of nesting more than doubles the number of steps. *)
Example C37_ex :
  parse_steps (str "[A] typedef any A;") = 224 /\
  parse_steps (str "[A([A] any... y)] typedef any A;") = 584 /\
  parse_steps (str "[A([A([A] any... y)] any... y)] typedef any A;") = 1304 /\
  parse_steps (str "[A([A([A([A] any... y)] any... y)] any... y)] typedef any A;") = 2744.
Proof. vm_compute. auto. Qed.

(** ** C38: depth of recursion *)
Theorem C38_linear : forall b A (p : pexp A), Impl b A p -> forall s, depth_as p s <= length s.
Proof. exact (fun b A p H s => depth_as_bound b A p s H). Qed.
Theorem C38_unbounded : forall k, exists text, length text <= 13 * k + 16 /\ (exists defs, parse text = Parsed defs) /\
  k <= parse_depth text.
Proof. exact depth_unbounded. Qed.
Example C38_ex : Impl false _ e_Definitions /\ parse_depth (str "typedef sequence<sequence<sequence<long>>> A;") = 3.
Proof. split; [repeat econstructor|]. vm_compute. reflexivity. Qed.

(** ** C39: what follows valid definitions is left *)
Theorem C39_rest : forall text defs rest, parse text = Parsed defs -> NoBlank rest -> Fails (parse_as e_Definition) rest ->
  parse_as e_Definitions (text ++ rest) = Ok rest defs.
Proof. exact Definitions_rest. Qed.
(** With blanks before the rest, these are skipped if there is a definition before. *)
Example C39_ex : exists defs, parse (str "typedef long A; ") = Parsed defs /\ Fails (parse_as e_Definition) (str "enum E {}; x") /\
  parse_as e_Definitions (str "typedef long A; enum E {}; x") = Ok (str "enum E {}; x") defs.
Proof. eexists. split; [vm_compute; reflexivity|]. split; [eexists _, _|]; vm_compute; reflexivity. Qed.

(** ** C40: time is at most exponential in the nesting of brackets, and linear otherwise *)
Theorem C40_exponential : forall b A (p : pexp A), Impl b A p -> exists C, forall s, steps_as p s <= C ^ S (length s).
Proof. exact steps_as_exp. Qed.
Theorem C40_parse_exponential : exists C, forall raw, parse_steps raw <= C ^ S (length raw).
Proof. exact parse_steps_exp. Qed.
Theorem C40_depth : forall raw ts rest, Rd rest raw ts -> Stuck rest -> parse_depth raw <= height ts.
Proof. exact parse_depth_height. Qed.
(** For any parser of the crate, a polynomial for each depth of recursion. *)
Theorem C40_polynomial : forall b A (p : pexp A), Impl b A p -> exists c k, forall s, steps_as p s <= (c * S (length s) ^ k) ^ S (depth_as p s).
Proof. exact steps_as_poly. Qed.
(** For [parse], linear for each nesting of brackets. *)
Theorem C40_nesting : exists c, forall raw ts rest, Rd rest raw ts -> Stuck rest -> parse_steps raw <= c ^ S (height ts) * S (length ts).
Proof. exact parse_steps_nesting. Qed.
Theorem C40_linear : forall h, exists c, forall raw ts rest, Rd rest raw ts -> Stuck rest -> height ts <= h -> parse_steps raw <= c * S (length raw).
Proof. exact parse_steps_linear. Qed.
(** Brackets that are closed do not count; the text may end in the middle of a definition. *)
Example C40_ex1 : exists ts rest, Rd rest (str "typedef sequence<(long or Promise<any>)> A; [B(long c)] interface D { #") ts /\
  Stuck rest /\ height ts = 3 /\ length ts = 24.
Proof.
  destruct (lex (str "typedef sequence<(long or Promise<any>)> A; [B(long c)] interface D { #")) as [ts rest] eqn:E.
  exists ts, rest. pose proof (proj1 (lex_exact _ _ _) E) as [H1 H2]. split; [exact H1|]. split; [exact H2|].
  assert (height (fst (ts, rest)) = 3 /\ length (fst (ts, rest)) = 24) by (rewrite <- E; vm_compute; auto). auto.
Qed.
Example C40_ex2 : parse_depth (str "typedef sequence<(long or Promise<any>)> A; [B(long c)] interface D { #") = 3.
Proof. vm_compute. reflexivity. Qed.

(** ** C41: where and how a failing parser reports its error *)
(** Every enum fails with [Alt], in front of its own input. *)
Theorem C41_enums : forall A (p : parser text A), EnumParser A p -> forall s e, p s = Err e -> e = Error s KAlt.
Proof. exact enum_error. Qed.
(** A term fails with [Tag], in front of the first character that is not blank. *)
Theorem C41_terms : forall t s e, p_term t s = Err e -> exists w b, s = w ++ b /\ Blank w /\ NoBlank b /\ e = Error b KTag.
Proof. exact term_error. Qed.
(** An identifier fails with [TakeWhile1] behind blanks and at most one underscore. *)
Theorem C41_identifiers : forall s e, p_Identifier s = Err e -> exists w u b, s = w ++ u ++ b /\ Blank w /\ NoBlank (u ++ b) /\
  (u = str "_" \/ u = [] /\ hd_error b <> Some 95%N) /\ e = Error b KTakeWhile1.
Proof. exact identifier_error. Qed.
(** A string fails with [Char], in front of a character that does not open one, or at the end of the text if nothing closes it. *)
Theorem C41_strings : forall s e, p_StringLit s = Err e -> exists w b, s = w ++ b /\ Blank w /\ NoBlank b /\
  (hd_error b <> Some 34%N /\ e = Error b KChar \/ (exists x, b = 34%N :: x /\ ~ In 34%N x) /\ e = Error [] KChar).
Proof. exact string_error. Qed.
Example C41_ex1 : EnumParser _ (parse_as e_Definition) /\
  parse_as e_Definition (str " enum E { ""a"" }") = Err (Error (str " enum E { ""a"" }") KAlt).
Proof. split; [constructor|]. vm_compute. reflexivity. Qed.
Example C41_ex2 : p_term Long (str " /**/ longer") = Err (Error (str "longer") KTag).
Proof. vm_compute. reflexivity. Qed.
Example C41_ex3 : p_Identifier (str " _1") = Err (Error (str "1") KTakeWhile1) /\
  p_StringLit (str " ""abc") = Err (Error [] KChar) /\ p_StringLit (str " abc") = Err (Error (str "abc") KChar).
Proof. repeat split; vm_compute; reflexivity. Qed.

(** ** C42: every text splits in exactly one way into blanks, tokens and a rest where no token starts *)
Theorem C42_split : forall raw, exists ts rest, Rd rest raw ts /\ Stuck rest.
Proof. intros raw. exists (fst (lex raw)), (snd (lex raw)). split; apply lex_spec. Qed.
Theorem C42_unique : forall raw ts ts' rest rest', Rd rest raw ts -> Stuck rest -> Rd rest' raw ts' -> Stuck rest' ->
  ts = ts' /\ rest = rest'.
Proof. exact Rd_unique. Qed.
(** It can be computed. *)
Theorem C42_computed : forall raw ts rest, lex raw = (ts, rest) <-> Rd rest raw ts /\ Stuck rest.
Proof. exact lex_exact. Qed.
Example C42_ex : lex (str " a_b-c/**/_long 0x1F.5e3 09 ""x"" -Infinity...// #") =
  ([TName false (str "a_b-c"); TName true (str "long"); TInt (IntegerLit_Hex (str "0x1F")); TFloat (str ".5e3");
    TInt (IntegerLit_Oct (str "0")); TInt (IntegerLit_Dec (str "9")); TStr (str "x"); TNegInf; TPunct "..."], str "// #").
Proof. vm_compute. reflexivity. Qed.

(** ** C43: on the bytes of a [&str] no parser cuts inside of a character, and it does what the model on characters does *)
Theorem C43_utf8 : forall b, Utf8 b <-> exists s, Scalars s /\ b = encode s.
Proof. exact Utf8_exact. Qed.
Theorem C43_safe : forall b A (p : pexp A) s, Impl b A p -> Utf8 s ->
  (exists rest v x, bytes_as p s = Ok rest v /\ Utf8 x /\ Utf8 rest /\ s = x ++ rest) \/
  (exists pos k x, bytes_as p s = Err (Error pos k) /\ Utf8 x /\ Utf8 pos /\ s = x ++ pos).
Proof. exact bytes_as_safe. Qed.
Theorem C43_same : forall b A (p : pexp A) s, Impl b A p -> Scalars s ->
  bytes_as p (encode s) = match parse_as p s with
                          | Ok rest v => Ok (encode rest) v
                          | Err (Error pos k) => Err (Error (encode pos) k)
                          | Err (Failure pos k) => Err (Failure (encode pos) k)
                          | Err Incomplete => Err Incomplete
                          | Diverge => Diverge
                          end.
Proof. exact bytes_as_encode. Qed.
Theorem C43_parse : forall s defs, Scalars s ->
  (parse_bytes (encode s) = Parsed defs <-> parse s = Parsed defs) /\ (parse_bytes (encode s) = Panicked <-> parse s = Panicked) /\
  parse_bytes (encode s) <> NoReturn.
Proof. exact parse_bytes_encode. Qed.
(** A comment and a string with characters of 1, 2, 3 and 4 bytes; a cut inside of a character would not return. *)
Definition C43_chars : text := [97; 233; 8364; 128512]%N.
Example C43_ex1 : Utf8 (encode (str "/*" ++ C43_chars ++ str "*/enum E { """ ++ C43_chars ++ str """ };")) /\
  exists defs, parse_bytes (encode (str "/*" ++ C43_chars ++ str "*/enum E { """ ++ C43_chars ++ str """ };")) = Parsed defs.
Proof.
  split; [apply Utf8_exact; eexists; split; [|reflexivity]|eexists; vm_compute; reflexivity].
  apply Scalars_dec. vm_compute. reflexivity.
Qed.
Example C43_ex2 : encode C43_chars = [97; 195; 169; 226; 130; 172; 240; 159; 152; 128]%N /\ slice_from 2 (encode C43_chars) = None /\
  slice_from 3 (encode C43_chars) = Some [226; 130; 172; 240; 159; 152; 128]%N.
Proof. repeat split; vm_compute; reflexivity. Qed.

(** ** C44: names and literals can be replaced *)
Theorem C44_replace : forall fn fs fi ff, (forall n, keyword n -> fn n = n) ->
  forall raw ts raw' ts', Toks raw ts -> Toks raw' ts' -> Forall2 (RenTok fn fs fi ff) ts ts' ->
  parse raw' = match parse raw with Parsed defs => Parsed (map (ren_Definition fn fs fi ff) defs) | Failed e => Failed e | Panicked => Panicked | NoReturn => NoReturn end.
Proof. exact (fun fn fs fi ff H raw ts raw' ts' => parse_ren fn fs fi ff H raw ts raw' ts'). Qed.
Theorem C44_any_text : forall fn fs fi ff, (forall n, keyword n -> fn n = n) ->
  forall raw ts r raw' ts' r', Rd r raw ts -> Stuck r -> Rd r' raw' ts' -> Stuck r' -> Forall2 (RenTok fn fs fi ff) ts ts' ->
  exists rest rest' defs, parse_as e_Definitions raw = Ok rest defs /\
    parse_as e_Definitions raw' = Ok rest' (map (ren_Definition fn fs fi ff) defs).
Proof. exact (fun fn fs fi ff H raw ts r raw' ts' r' => definitions_ren fn fs fi ff H raw ts r raw' ts' r'). Qed.
(** [Foo] becomes [_Bar], the text of a string and a number change, and the keywords stay. *)
Definition C44_fn (n : text) : text := if text_eqb n (str "Foo") then str "Bar" else n.
Definition C44_fs (s : text) : text := str "yy".
Definition C44_fi (l : IntegerLit) : IntegerLit := IntegerLit_Hex (str "0x1f").
Definition C44_raw := str "dictionary Foo : Foo { sequence<Foo> attribute = 12; DOMString s = ""x""; };".
Definition C44_raw' := str "dictionary Bar:_Bar { sequence < Bar > attribute = 0x1f;DOMString s=""yy"" ;};".
Example C44_ex : Forall2 (RenTok C44_fn C44_fs C44_fi (fun s => s)) (fst (lex C44_raw)) (fst (lex C44_raw')) /\
  Toks C44_raw (fst (lex C44_raw)) /\ Toks C44_raw' (fst (lex C44_raw')) /\
  (exists defs, parse C44_raw = Parsed defs /\ length defs = 1) /\
  parse C44_raw' = match parse C44_raw with
                   | Parsed defs => Parsed (map (ren_Definition C44_fn C44_fs C44_fi (fun s => s)) defs) | Failed e => Failed e | Panicked => Panicked | NoReturn => NoReturn end.
Proof.
  assert (K : Forall2 (RenTok C44_fn C44_fs C44_fi (fun s => s)) (fst (lex C44_raw)) (fst (lex C44_raw'))).
  { let x := eval vm_compute in (fst (lex C44_raw)) in replace (fst (lex C44_raw)) with x by (vm_compute; reflexivity).
    let x := eval vm_compute in (fst (lex C44_raw')) in replace (fst (lex C44_raw')) with x by (vm_compute; reflexivity).
    repeat first [ apply Forall2_nil | apply Forall2_cons
      | apply RenTok_punct | apply RenTok_int | apply (RenTok_str C44_fn C44_fs C44_fi (fun s => s))
      | apply RenTok_keyword; apply keyword_b_spec; vm_compute; reflexivity
      | match goal with |- RenTok ?f ?g ?h ?k (TName ?e ?n) (TName ?e' ?m) => apply (RenTok_name f g h k e e' n) end;
        rewrite <- keyword_b_spec; vm_compute; discriminate ]. }
  split; [exact K|]. split; [apply Toks_lex; vm_compute; split; [reflexivity|discriminate]|]. split; [apply Toks_lex; vm_compute; split; [reflexivity|discriminate]|].
  split; [eexists; split; vm_compute; reflexivity|vm_compute; reflexivity].
Qed.
(** With a keyword it does not work: [interface] is not a name here. *)
Example C44_keyword : parse (str "interface A { };") <> Panicked /\ parse (str "interfaces A { };") = Panicked.
Proof. split; vm_compute; congruence. Qed.

(** ** C45: the exact texts of types, arguments and attributes *)
Theorem C45_sound : forall A (p : pexp A) show w C, Part A p show w C -> forall s rest a, parse_as p s = Ok rest a ->
  exists ts, Ats ts s rest /\ Conc (show a) ts [] /\ w a.
Proof. exact part_sound. Qed.
Theorem C45_exact : forall A (p : pexp A) show w C, Part A p show w C -> forall s rest a, C rest ->
  (parse_as p s = Ok rest a <-> exists ts, Ats ts s rest /\ Conc (show a) ts [] /\ w a).
Proof. exact part_exact. Qed.
Theorem C45_arguments : forall s rest l, parse_as (e_Parenthesized e_ArgumentList) s = Ok rest l <->
  exists ts, Ats ts s rest /\ Conc (GP "(" :: join (GP ",") (map show_Argument l) ++ [GP ")"]) ts [] /\ All wf_Argument l.
Proof. exact arguments_exact. Qed.
Theorem C45_attributes : forall s rest l, parse_as e_ExtendedAttributeList s = Ok rest l <->
  exists ts, Ats ts s rest /\ Conc (GP "[" :: join (GP ",") (map show_ExtendedAttribute l) ++ [GP "]"]) ts [] /\ All wf_ExtendedAttribute l.
Proof. exact attributes_exact. Qed.
Example C45_ex1 : is_ok (parse_as e_Type (str "record<DOMString, (Foo or sequence<unsigned long long>?)>? x")) = true.
Proof. vm_compute. reflexivity. Qed.
Example C45_ex2 : is_ok (parse_as e_ExtendedAttributeList (str "[A, B=C, D(long x, any... y), E=""s"", F=*, G=(H, I), J=K(long z)] x")) = true.
Proof. vm_compute. reflexivity. Qed.
Example C45_ex3 : is_ok (parse_as (e_Parenthesized e_ArgumentList) (str "([A] optional [B] long x = 3, Foo... y) z")) = true.
Proof. vm_compute. reflexivity. Qed.
(** Why something has to be known about what follows: [long] is followed by [long], and [sequence] is read as a name. *)
Example C45_ex4 : parse_as e_Type (str "sequence<>") =
  Ok (str "<>") (Type_Single (SingleType_NonAny (NonAnyType_Identifier (mkMayBeNull (str "sequence") None)))).
Proof. vm_compute. reflexivity. Qed.

(** ** C46: text that arrives in parts *)
(** With more text, parsing can go on at the rest of the first part (behind blanks that the new text may complete). *)
Theorem C46_resume : forall a b r xs, parse_as e_Definitions a = Ok r xs -> xs <> [] ->
  exists w r', r ++ b = w ++ r' /\ Blank w /\ NoBlank r' /\
  forall r'' zs, parse_as e_Definitions r' = Ok r'' zs -> parse_as e_Definitions (a ++ b) = Ok r'' (xs ++ zs).
Proof. exact Definitions_resume. Qed.
Theorem C46_monotone : forall a b r xs r' ys, parse_as e_Definitions a = Ok r xs -> parse_as e_Definitions (a ++ b) = Ok r' ys ->
  exists zs, ys = xs ++ zs.
Proof. exact Definitions_monotone. Qed.
Theorem C46_prefix : forall a b ys, parse (a ++ b) = Parsed ys -> exists r xs zs,
  parse_as e_Definitions a = Ok r xs /\ ys = xs ++ zs /\ (zs = [] \/ parse (r ++ b) = Parsed zs).
Proof. exact parse_prefix. Qed.
(** The first part ends within a comment, and within a definition. *)
Example C46_ex1 : exists x y, parse_as e_Definitions (str "typedef long A; /* enum") = Ok (str "/* enum") [x] /\
  parse_as e_Definitions (str "typedef long A; /* enum" ++ str " */ A includes B; ") = Ok [] [x; y].
Proof. eexists _, _. split; vm_compute; reflexivity. Qed.
Example C46_ex2 : exists x y, parse_as e_Definitions (str "typedef long A; interface I { attribute long a;") =
    Ok (str "interface I { attribute long a;") [x] /\
  parse (str "typedef long A; interface I { attribute long a;" ++ str " };") = Parsed [x; y] /\
  parse (str "interface I { attribute long a;" ++ str " };") = Parsed [y].
Proof. eexists _, _. repeat split; vm_compute; reflexivity. Qed.

(** ** C47: keywords as names *)
(** Refutes that keywords are reserved: any word [n] can stand in every place [@] of the text [all_places]. *)
Theorem C47_reserved_refuted : forall n, NameLex n -> parse (fill all_places n) = Parsed (all_named n).
Proof. exact any_word. Qed.
(** As a type, the exact set of words that are not names. *)
Theorem C47_types : forall n, NameLex n ->
  (parse (fill "typedef @ A ;" n) = Parsed [Definition_Typedef (mkTypedefDefinition None (named_type n) (str "A"))] <->
   ~ In n (map str ("any"%string :: type_words))).
Proof. exact type_word. Qed.
Theorem C47_after_long : forall n, NameLex n ->
  (parse (fill "typedef long @ ;" n) = Parsed [Definition_Typedef (mkTypedefDefinition None long_type n)] <-> n <> str "long").
Proof. exact word_after_long. Qed.
Example C47_ex1 : forall k, In k keyword_list -> NameLex (str k) /\
  parse (fill "enum @ { ""x"" } ;" (str k)) = Parsed [Definition_Enum (mkEnumDefinition None (str k) [str "x"])].
Proof.
  intros k H. unfold keyword_list in H. cbn [In] in H.
  repeat (destruct H as [<-|H]; [split; [apply NameLex_dec; reflexivity|vm_compute; reflexivity]|]). destruct H.
Qed.
Example C47_ex2 : exists defs, parse (str "interface interface : interface { undefined undefined(any any); };") = Parsed defs /\
  lexemes defs = [str "interface"; str "interface"; str "undefined"; str "any"].
Proof. eexists. split; vm_compute; reflexivity. Qed.

(** ** C48: the parser without a lexer does what a lexer followed by a parser on tokens does *)
Theorem C48_scan : forall b A (p : pexp A) s, Impl b A p -> Plain p ->
  match parse_as p s, parse_toks p (S (length s)) (fst (lex s)) with
  | Ok r a, Ok ts' a' => a = a' /\ left_over s ts' r
  | Err _, Err _ => True
  | _, _ => False
  end.
Proof. exact scan_parse. Qed.
Theorem C48_two_phases : forall raw, parse raw = two_phases raw.
Proof. exact parse_two_phases. Qed.
Example C48_ex1 : exists defs, two_phases (str "typedef(long or[A]DOMString?)B;//x
  B includes C/**/;") = Parsed defs /\ length defs = 2.
Proof. eexists. split; vm_compute; reflexivity. Qed.
(** [Plain] excludes only the terms [-] and [.], which occur in no rule: they can read a part of a number. *)
Example C48_ex2 : parse_as (T_ Minus) (str "-5") = Ok (str "5") tt /\ fst (lex (str "-5")) = [TInt (IntegerLit_Dec (str "-5"))].
Proof. split; vm_compute; reflexivity. Qed.
Example C48_ex3 : Plain e_Definitions /\ Plain e_Type /\ Plain e_AttributedType /\ Plain (e_Parenthesized e_ArgumentList).
Proof. exact (conj P_Defs (conj Plain_e_Type (conj Plain_e_AttributedType Plain_e_args))). Qed.

(** ** C49: the derived comparisons *)
(** For every type [A] of the crate: [cmp] returns [Equal] exactly for equal values, and is a total order. *)
Theorem C49_total : forall A f, Repr A f ->
  (forall a b, ord f a b = Eq <-> a = b) /\
  (forall a b, ord f b a = CompOpp (ord f a b)) /\
  (forall a b c x, ord f a b = x -> ord f b c = x -> ord f a c = x).
Proof. exact ord_total. Qed.
(** Comparison of names and literals: by bytes is the same as by characters. *)
Theorem C49_str : forall s t, Scalars s -> Scalars t -> cmp_text (encode s) (encode t) = cmp_text s t.
Proof. exact utf8_order. Qed.
Example C49_ex1 : exists a b c, parse (str "interface B {}; enum A { ""x"" }; enum A { ""x"", ""y"" };") = Parsed [a; b; c] /\
  ord data_Definition a b = Lt /\ ord data_Definition b c = Lt /\ ord data_Definition c a = Gt /\
  ord data_Definitions [a] [a; b] = Lt /\ ord data_Definitions [b] [a; c] = Gt.
Proof. eexists _, _, _. repeat split; vm_compute; reflexivity. Qed.
Example C49_ex2 : Repr _ data_Definitions /\ Repr _ (d_option (d_list data_ExtendedAttribute)).
Proof. split; repeat constructor. Qed.
Example C49_ex3 : cmp_text (encode [233; 65536]%N) (encode [8364]%N) = Lt /\ Scalars [233; 65536]%N.
Proof. split; [vm_compute; reflexivity|apply Scalars_dec; vm_compute; reflexivity]. Qed.

(** ** C50: the size of trees *)
Theorem C50_linear : forall raw defs, parse raw = Parsed defs -> size (data_Definitions defs) <= 1 + 10 * length raw.
Proof. exact size_linear. Qed.
Theorem C50_tokens : forall raw defs, parse raw = Parsed defs ->
  exists ts, Toks raw ts /\ size (data_Definitions defs) <= 1 + 10 * length ts.
Proof. exact size_bound. Qed.
Example C50_ex : exists defs, parse (str "callback f=a(a x,a y,a z);") = Parsed defs /\ size (data_Definitions defs) = 55 /\
  length (fst (lex (str "callback f=a(a x,a y,a z);"))) = 15.
Proof. eexists. repeat split; vm_compute; reflexivity. Qed.

(** ** C51: the grammar of the Web IDL standard *)
Theorem C51_accepts : forall raw ts, Toks raw ts -> Supported ts -> exists defs, parse raw = Parsed defs.
Proof. exact Supported_parse. Qed.
Theorem C51_fragment : forall ts, Supported ts -> Standard ts.
Proof. exact Supported_Standard. Qed.
(** The whole standard is not accepted: one text for each difference between [Supported] and [Standard]. *)
Theorem C51_standard_refuted :
  Forall (fun s => exists ts, Toks (str s) ts /\ Standard ts /\ parse (str s) = Panicked)
    ["typedef sequence<[A] long> b;"; "typedef FrozenArray<[A] long> b;"; "typedef record<DOMString, [A] long> b;";
     "dictionary A { required [B] long c; };"; "interface A { attribute ObservableArray<long> b; };";
     "callback A = undefined? ();"; "interface A { undefined? b(); };"; "interface A { legacycaller(); };"]%string.
Proof. exact Standard_refuted. Qed.
Example C51_ex : exists ts, Toks (str
  "[Exposed=(Window,Worker)] interface _partial : Node { constructor(optional [Clamp] long readonly = -0x1F, any... rest);
     const unsigned long long A = 1; stringifier readonly attribute USVString? async; static Promise<undefined> f([B] (long? or sequence<any>) x);
     async iterable<[C] DOMString, record<USVString, Error>>(); readonly maplike<object, symbol>; getter undefined (undefined? includes);
     inherit attribute unrestricted double d; };
   partial interface mixin M { stringifier; bigint includes(); };  dictionary D { required any a; bigint? b = null; };
   enum E { ""a"", ""b"", }; callback C = undefined (); callback interface I { const Error _const = -Infinity; };
   partial namespace N { readonly attribute FrozenArray<undefined> legacy; }; Foo includes Bar;") ts /\ Supported ts.
Proof. exact sample_supported. Qed.

(** ** C52: nothing but the grammar of the standard with some rules relaxed is accepted *)
Theorem C52_relaxed : forall raw defs, parse raw = Parsed defs -> exists ts, Toks raw ts /\ Relaxed ts.
Proof. exact parse_Relaxed. Qed.
Theorem C52_rejects : forall raw ts, Toks raw ts -> ~ Relaxed ts -> forall defs, parse raw <> Parsed defs.
Proof. exact not_relaxed. Qed.
(** One text for each relaxation: accepted, and not derivable in the grammar of the standard. *)
Theorem C52_standard_refuted :
  Forall (fun s => exists ts defs, Toks (str s) ts /\ ~ Standard ts /\ parse (str s) = Parsed defs)
    ["interface interface {};"; "A implements B;"; "partial interface A { constructor(); };"; "callback interface A : B {};";
     "callback interface A { iterable<long>; };"; "interface A { const long? b = 1; };"; "interface A { const long b = null; };";
     "interface A { inherit readonly attribute long b; };"; "interface A { static getter long b(long c); };";
     "interface A { stringifier getter long b(long c); };"; "interface A { legacycaller long b(); };";
     "interface A { long b([C] [D] long e); };"; "dictionary A { required long b = 1; };"; "typedef () a;"; "typedef (long) a;";
     "typedef (Promise<long> or long) a;"; "typedef record<long, any> a;"; "typedef record<Promise<any>, any> a;";
     "[] interface A {};"; "[A=()] interface B {};"; "[A=""b""] interface B {};"]%string.
Proof. exact more_than_standard. Qed.
(** Derivability in the standard is decidable. *)
Theorem C52_decidable : forall ts, standard ts = true <-> Standard ts.
Proof. exact standard_spec. Qed.
Example C52_ex : exists ts, Toks (str "dictionary A { long b; attribute long c; };") ts /\ ~ Relaxed ts.
Proof. apply unrelaxed_ok. vm_compute. reflexivity. Qed.
Example C52_ex2 : exists ts, Toks (str "interface A { iterable<long> b; };") ts /\ ~ Relaxed ts.
Proof. apply unrelaxed_ok. vm_compute. reflexivity. Qed.

(** ** C53: the model is what the source text says *)
(** The whole source was understood: every item of the 13 files is read. *)
Theorem C53_read : crate_items = read_crate /\ length crate_items = 496 /\ forall l, ~ In (IBad l) crate_items.
Proof. exact crate_read. Qed.
(** Running [fn parse] of src/lib.rs gives what the model says, for every text. *)
Theorem C53_parse : forall raw, exists N, forall n, N <= n -> Interp.call n (CFn "parse") [VStr raw] = outcome_answer (parse raw).
Proof. exact parse_source. Qed.
(** Running the implementation of [Parse] for any type gives what its model says. *)
Theorem C53_impls : forall t A P enc, ImplFor t A P enc ->
  forall i, exists N, forall n, N <= n -> Interp.call n (CParse t) [VStr i] = answer enc (P i).
Proof. exact implements_source. Qed.
(** These are all the implementations in the source, and all of them are parsers that the other theorems are about. *)
Theorem C53_covered : forall vs t x b, In (IParse vs t x b) crate_items -> covered vs t.
Proof. exact all_covered. Qed.
Theorem C53_parsers : forall t A P enc, ImplFor t A P enc -> exists b, Parser b A P.
Proof. exact implements_parser. Qed.
Example C53_ex1 : Interp.call 40 (CFn "parse") [VStr (str "enum A { ""b"" };")] =
  Val (VCon "Ok" [VVec [VData "Definition" "Enum" [("0", VData "EnumDefinition" ""
    [("attributes", VCon "None" []); ("enum_", VData "term::Enum" "" []); ("identifier", VData "Identifier" "" [("0", VStr (str "A"))]);
     ("values", VData "Braced" "" [("open_brace", VData "term::OpenBrace" "" []);
       ("body", VData "PunctuatedNonEmpty" "" [("list", VVec [VData "StringLit" "" [("0", VStr (str "b"))]]); ("separator", VData "term::Comma" "" [])]);
       ("close_brace", VData "term::CloseBrace" "" [])]);
     ("semi_colon", VData "term::SemiColon" "" [])])]]])%string.
Proof. vm_compute. reflexivity. Qed.
Example C53_ex2 : Interp.call 40 (CFn "parse") [VStr (str "enum A { ""b"" }")] = Panic.
Proof. vm_compute. reflexivity. Qed.
Example C53_ex3 : exists enc, ImplFor (Ty "Option" [TyTuple [Ty "Vec" [Ty "Argument" []]; tterm Ellipsis]]) (option (list Argument * unit))
  (parse_as (e_Option (e_pair2 (e_Vec e_Argument) (T_ Ellipsis)))) enc /\
  is_ok (parse_as (e_Option (e_pair2 (e_Vec e_Argument) (T_ Ellipsis))) (str "long x ... ;")) = true.
Proof. eexists. split; [apply Imp_Modelled, M_Option, M_pair; [apply M_Vec, M_Argument|apply M_term]|vm_compute; reflexivity]. Qed.

(** ** C54: values and comparisons by the declarations in the source *)
(** [wt v t]: [v] has the type [t] by the declarations in the source text.  Every tree of the model is a value of its type, and
    every value of the type is one tree of the model. *)
Theorem C54_values : forall t A P enc, ImplFor t A P enc -> forall v, wt v t <-> exists x, v = enc x.
Proof. exact impl_values. Qed.
Theorem C54_injective : forall t A P enc, ImplFor t A P enc -> forall x y, enc x = enc y -> x = y.
Proof. exact enc_injective. Qed.
Theorem C54_declared : forall i n, In i crate_items -> In n (declared i) -> exists A P enc, ImplFor (Ty n []) A P enc.
Proof. exact declared_covered. Qed.
(** What running the source returns has the declared type. *)
Theorem C54_parse_typed : forall raw, exists N, forall n v, N <= n ->
  Interp.call n (CFn "parse") [VStr raw] = Val (VCon "Ok" [v]) -> wt v (Ty "Vec" [Ty "Definition" []]).
Proof. exact parse_typed. Qed.
Theorem C54_typed : forall t A P enc, ImplFor t A P enc -> forall i, exists N, forall n r v, N <= n ->
  Interp.call n (CParse t) [VStr i] = Val (VCon "Ok" [VTup [VStr r; v]]) -> wt v t.
Proof. exact source_typed. Qed.
(** The comparison that [derive] makes from the declarations is a total order on the values of the type, [Equal] for equal values only;
    it is the comparison of the model. *)
Theorem C54_order : forall t A P enc, ImplFor t A P enc ->
  (forall u v, wt u t -> wt v t -> (derived_order u v = Eq <-> u = v)) /\
  (forall u v, wt u t -> wt v t -> derived_order v u = CompOpp (derived_order u v)) /\
  (forall u v w c, wt u t -> wt v t -> wt w t -> derived_order u v = c -> derived_order v w = c -> derived_order u w = c).
Proof. exact source_order. Qed.
Theorem C54_model_order : forall t A P enc, ImplFor t A P enc ->
  exists f, Repr A f /\ forall x y, ord f x y = derived_order (enc x) (enc y).
Proof. exact model_order. Qed.
(** All types derive these. *)
Theorem C54_derived : forall i d, In i crate_items -> derives i = Some d -> forall t, In t standard_traits -> In t d.
Proof. exact all_derived. Qed.
Example C54_ex1 : wt (VData "Inheritance" "" [("colon", VData "term::Colon" "" []); ("identifier", VData "Identifier" "" [("0", VStr (str "A"))])]) (Ty "Inheritance" [])%string /\
  ~ wt (VData "Inheritance" "" [("identifier", VData "Identifier" "" [("0", VStr (str "A"))])]) (Ty "Inheritance" [])%string.
Proof.
  split; rewrite (C54_values _ _ _ _ (Imp_Modelled _ _ _ _ M_Inheritance)).
  - exists (mkInheritance (str "A")). reflexivity.
  - intros [[x] E]. discriminate E.
Qed.
Example C54_ex2 : match Interp.call 40 (CFn "parse") [VStr (str "interface B {}; enum A { ""x"" };")]%string with
  | Val (VCon _ [VVec [a; b]]) => derived_order a b = Lt /\ derived_order b b = Eq /\ derived_order (VVec [b]) (VVec [a; b]) = Gt
  | _ => False
  end.
Proof. vm_compute. auto. Qed.
Example C54_ex3 : In "OperationInterfaceMember"%string (flat_map declared crate_items) /\ length (flat_map declared crate_items) = 171.
Proof. vm_compute. split; [|reflexivity]. repeat (first [left; reflexivity|right]). Qed.

(** ** C55: nothing in the declared types is left over *)
(** One text whose result has every variant of every enum, every struct but four, both cases of every optional field, a value of every
    type that is used, and for every type of lists a long one and an empty one (but for the values of an enumeration, which cannot
    be empty, and the definitions themselves, which are empty for the empty text). *)
Theorem C55_live : exists raw v, (exists N, forall n, N <= n -> Interp.call n (CFn "parse") [VStr raw] = Val (VCon "Ok" [v])) /\
  (forall ds t vs c a, In (IEnum ds t vs) crate_items -> In (c, a) vs -> exists fs, Inside (VData t c fs) v) /\
  (forall ds t vs fs, In (IStruct ds t vs fs) crate_items -> ~ In t ["term::Minus"; "term::Dot"; "term::True"; "term::False"]%string ->
     exists fs', Inside (VData t "" fs') v) /\
  (forall ds t vs fs f a, In (IStruct ds t vs fs) crate_items -> In (f, Ty "Option" [a]) fs ->
     (exists l x, Inside (VData t "" l) v /\ In (f, VCon "Some" [x]) l) /\ (exists l, Inside (VData t "" l) v /\ In (f, VCon "None" []) l)) /\
  (forall u, Uses u -> exists w, PartOf w u v ty_result) /\
  (forall t, Uses (Ty "Vec" [t]) ->
     (exists x y l, PartOf (VVec (x :: y :: l)) (Ty "Vec" [t]) v ty_result) /\
     (t = Ty "StringLit" [] \/ t = Ty "Definition" [] \/ PartOf (VVec []) (Ty "Vec" [t]) v ty_result)).
Proof. exact (ex_intro _ _ (ex_intro _ _ (conj sample_run (conj variants_live (conj structs_live (conj options_live (conj types_live lists_live))))))). Qed.
(** The four structs are in no result. *)
Theorem C55_unused : forall raw, exists N, forall n v t c fs, N <= n -> Interp.call n (CFn "parse") [VStr raw] = Val (VCon "Ok" [v]) ->
  In t ["term::Minus"; "term::Dot"; "term::True"; "term::False"]%string -> ~ Inside (VData t c fs) v.
Proof. exact structs_dead. Qed.
Example C55_ex1 : length types = 249 /\ length (flat_map declared crate_items) = 171 /\
  existsb (fun i => match i with IStruct _ t _ _ => String.eqb t "term::Dot" | _ => false end) crate_items = true.
Proof. vm_compute. auto. Qed.
Example C55_ex2 : Uses (Ty "TypedefDefinition" []).
Proof.
  assert (K : exists ds vs, In (IEnum ds "Definition" vs) crate_items /\ In ("Typedef", Ty "TypedefDefinition" [])%string vs).
  { assert (E : existsb (fun i => match i with IEnum _ n vs => String.eqb n "Definition" &&
        existsb (fun f => String.eqb (fst f) "Typedef" && rty_eqb (snd f) (Ty "TypedefDefinition" [])) vs | _ => false end) crate_items = true) by (vm_compute; reflexivity).
    apply existsb_exists in E as (i & Hi & E). destruct i as [|ds n vs| | | | |]; try discriminate E. apply andb_true_iff in E as [E1 E2]. apply String.eqb_eq in E1. subst.
    apply existsb_exists in E2 as ([f t] & Hf & E). cbn [fst snd] in E. apply andb_true_iff in E as [E1 E2]. apply String.eqb_eq in E1.
    apply (rty_eqb_eq _ _ _ (le_n _)) in E2. subst. eauto. }
  destruct K as (ds & vs & Hi & Hv). apply (U_variant _ _ _ "Typedef"%string _ Hi); [|exact Hv]. apply (U_arg "Vec"); [cbn; auto|constructor].
Qed.

(** ** C56: attribute lists are transparent *)
(** For every construct with attributes ([get] and [set] are its field; the boolean is false for arguments, whose types can have attributes
    of their own): an attribute list that is in front of it changes nothing but the field. *)
Theorem C56_transparent : forall b A p get set, Annotated b A p get set -> forall i r a,
  parse_as e_ExtendedAttributeList i = Ok r a -> Fails (parse_as e_ExtendedAttributeList) r ->
  forall rest x, parse_as p i = Ok rest x <-> exists y, parse_as p r = Ok rest y /\ get y = None /\ x = set y (Some a).
Proof. exact (fun b A p get set HA => attributes_transparent HA). Qed.
Theorem C56_kept : forall b A p get set, Annotated b A p get set -> forall i rest x, parse_as p i = Ok rest x ->
  match get x with
  | Some a => exists r, parse_as e_ExtendedAttributeList i = Ok r a
  | None => Fails (parse_as e_ExtendedAttributeList) i
  end.
Proof. exact (fun b A p get set HA => attributes_kept HA). Qed.
Theorem C56_once : forall A p get set i r r' a a', Annotated true A p get set ->
  parse_as e_ExtendedAttributeList i = Ok r a -> parse_as e_ExtendedAttributeList r = Ok r' a' -> Fails (parse_as p) i.
Proof. exact attributes_once. Qed.
Theorem C56_first : forall A p get set i rest x xs a, Annotated true A p get set -> get x = Some a ->
  parse_as (e_Vec p) i = Ok rest (x :: xs) <->
  exists r, parse_as e_ExtendedAttributeList i = Ok r a /\ parse_as (e_Vec p) r = Ok rest (set x None :: xs).
Proof. exact attributes_first. Qed.
Theorem C56_parse : forall i d ds a, attributes_Definition_ d = Some a ->
  parse i = Parsed (d :: ds) <->
  exists r, parse_as e_ExtendedAttributeList i = Ok r a /\ parse r = Parsed (with_Definition_ d None :: ds).
Proof. exact parse_first_attributes. Qed.
(** [get] and [set] are a field. *)
Theorem C56_field : forall b A p get set, Annotated b A p get set -> forall x a a', get (set x a) = a /\ set x (get x) = x /\ set (set x a) a' = set x a'.
Proof. exact (fun b A p get set HA x a a' => conj (Annotated_get _ _ _ _ _ HA x a) (conj (Annotated_set_get _ _ _ _ _ HA x) (Annotated_set_set _ _ _ _ _ HA x a a'))). Qed.
(** Arguments can have two lists. *)
Theorem C56_once_argument_refuted : exists i r r' a a' x, Annotated false _ e_Argument attributes_Argument with_Argument /\
  parse_as e_ExtendedAttributeList i = Ok r a /\ parse_as e_ExtendedAttributeList r = Ok r' a' /\ parse_as e_Argument i = Ok [] x.
Proof.
  exists (str "[A] [B] long x"). do 5 eexists. split; [apply An_Argument|]. split; [vm_compute; reflexivity|]. split; vm_compute; reflexivity.
Qed.
Example C56_ex1 : exists r a, parse_as e_ExtendedAttributeList (str "[A, B=""c""] attribute long x;") = Ok r a /\ Fails (parse_as e_ExtendedAttributeList) r /\
  r = str "attribute long x;" /\ exists rest x, parse_as e_InterfaceMember (str "[A, B=""c""] attribute long x;") = Ok rest x /\ attributes_InterfaceMember x = Some a.
Proof.
  do 2 eexists. split; [vm_compute; reflexivity|]. split; [do 2 eexists; vm_compute; reflexivity|]. split; [reflexivity|].
  do 2 eexists. split; [vm_compute; reflexivity|]. vm_compute. reflexivity.
Qed.
Example C56_ex2 : exists d d' ds, parse (str "[A] enum E { ""b"" }; typedef long T;") = Parsed (d :: ds) /\ attributes_Definition_ d <> None /\
  parse (str "enum E { ""b"" }; typedef long T;") = Parsed (d' :: ds) /\ attributes_Definition_ d' = None.
Proof. do 3 eexists. split; [vm_compute; reflexivity|]. split; [vm_compute; discriminate|]. split; vm_compute; reflexivity. Qed.
(** [Annotated] has all 35 structs of the source with such a field (and the 7 enums that are made of them). *)
Example C56_all : length (flat_map (fun i => match i with IStruct _ n _ fs => if existsb (fun f => String.eqb (fst f) "attributes") fs then [n] else [] | _ => [] end) crate_items) = 35.
Proof. vm_compute. reflexivity. Qed.
Example C56_ex3 : parse (str "[A] [B] enum E { ""b"" };") = Panicked.
Proof. vm_compute. reflexivity. Qed.

(** ** C57: lists of members can be joined and cut *)
Theorem C57_join : forall A p, Item A p -> forall a b x y r, parse_as (e_Vec p) a = Ok [] x -> parse_as (e_Vec p) b = Ok r y -> NoBlank r ->
  parse_as (e_Vec p) (a ++ b) = Ok r (x ++ y).
Proof. exact @items_app. Qed.
Theorem C57_cut : forall A p, Item A p -> forall s x y r, parse_as (e_Vec p) s = Ok r (x ++ y) ->
  exists a b, s = a ++ b /\ parse_as (e_Vec p) a = Ok [] x /\ parse_as (e_Vec p) b = Ok r y.
Proof. exact @items_cut. Qed.
Example C57_ex : exists x y, parse_as (e_Vec e_InterfaceMember) (str "attribute long x; /* c */") = Ok [] x /\
  parse_as (e_Vec e_InterfaceMember) (str " [A] stringifier; long f(); }") = Ok (str "}") y /\ NoBlank (str "}") /\ length x = 1 /\ length y = 2.
Proof.
  do 2 eexists. split; [vm_compute; reflexivity|]. split; [vm_compute; reflexivity|]. split; [|auto].
  apply NoBlank_head; [intros [H|[H|[H|H]]]; discriminate H|discriminate].
Qed.

(** ** C58: the tests of the crate, read from its source and run, pass *)
Theorem C58_unit : length unit_tests = 561 /\ forall t, In t unit_tests -> run_test (Interp.call 100) t = Pass.
Proof. exact unit_tests_pass. Qed.
Theorem C58_integration : length integration_tests = 6
  /\ exists N, forall n, N <= n -> forall t, In t integration_tests -> run_test (with_files (Interp.call n)) t = Pass.
Proof. exact integration_tests_pass. Qed.
Theorem C58_read :
  all_macros = flat_map (fun s => test_macros (Rust.tokens (snd s))) sources ++ fst (read_items 3000 [] "lib" [] (Rust.tokens src_lib))
  /\ unit_tests = flat_map file_tests sources
  /\ integration_tests = read_tests 3000 all_macros "webidl" "webidl" [] (Rust.tokens SourceDefs.src_webidl)
  /\ NoDup (map fst (unit_tests ++ integration_tests)).
Proof. exact tests_read. Qed.
(** One of the tests; and with a crate that rejects everything, all but one fail. *)
Example C58_ex1 : exists l, nth_error unit_tests 1 = Some ("lib::test::should_parse_typedef"%string, Some l) /\ length l = 4.
Proof. eexists. split; [vm_compute; reflexivity|reflexivity]. Qed.
Example C58_ex2 : length (filter (fun t => passes (run_test (fun _ _ => Val (verr (Error [] KTag))) t)) unit_tests) = 1.
Proof. vm_compute. reflexivity. Qed.

(** ** C59: what the documentation of the source says *)
(** Whatever a type reads has the form in its documentation ([HasForm]: with the parsers of the source for the names in it). *)
Theorem C59_forms : forall n f d s rest, In (n, f) documented -> ~ In n other_form -> form_of f = Some d ->
  Runs (Ty n []) s rest -> HasForm d s rest.
Proof. exact forms_hold. Qed.
(** The five documentations that are wrong, each with a text. *)
Theorem C59_forms_refuted : forall n, In n other_form ->
  exists f d s, In (n, f) documented /\ form_of f = Some d /\ Runs (Ty n []) s [] /\ ~ HasForm d s [].
Proof. exact forms_refuted. Qed.
Theorem C59_all_forms : length documented = 52 /\
  forallb (fun x => match form_of (snd x) with Some _ => true | None => false end) documented = true.
Proof. exact forms_read. Qed.
Theorem C59_terms : forall t, t <> NegInfinity -> t <> BufferSource ->
  exists n l x, term_type t = ("term::" ++ n)%string /\ In (n, l) term_docs /\ symbol l = Some x /\ x = term_text t.
Proof. exact terms_documented. Qed.
Theorem C59_terms_refuted : exists l, In ("NegInfinity"%string, l) term_docs /\ symbol l = Some "Infinity"%string /\
  Runs (Ty "term::NegInfinity" []) (str "-Infinity") [] /\
  forall r, ~ Runs (Ty "term::NegInfinity" []) (str "Infinity") r.
Proof. exact neg_infinity_documented. Qed.
Theorem C59_examples : forall n e, In (n, e) examples ->
  exists rest, Runs (example_type n) (str e) rest /\ forall c, In c rest -> c = 32%N.
Proof. exact examples_parse. Qed.
Theorem C59_programs : length doc_tests = 3 /\ forall t, In t doc_tests -> run_test (Interp.call 100) t = Pass.
Proof. exact doc_tests_pass. Qed.
Theorem C59_read :
  documented = filter (fun d => not_generic (fst d)) (flat_map doc_form (flat_map file_docs type_files)) /\
  term_docs = file_docs Source.src_term /\
  examples = flat_map doc_examples (flat_map (fun f => file_docs (snd f)) sources) /\
  doc_tests = map (fun s => ("lib"%string, tstmts_of all_macros "lib" tdepth (quiet 1000 (Rust.tokens s))))
    (flat_map (fun f => fences false "" (lines_of (String.length (snd f)) (snd f))) sources).
Proof. exact docs_read. Qed.
Example C59_ex1 : In ("RecordType"%string, "record<StringType, Type>"%string) documented /\
  form_of "record<StringType, Type>" = Some [AWord "record"; APunct "<"; ANon "StringType"; APunct ","; ANon "Type"; APunct ">"] /\
  Runs (Ty "RecordType" []) (str "record<USVString, any>x") (str "x").
Proof.
  split; [unfold documented; cbn [In]; tauto|]. split; [vm_compute; reflexivity|].
  eapply run_exact; [constructor|vm_compute; reflexivity].
Qed.
(** A form excludes something: nothing of the form of [LongType] begins with [short]. *)
Example C59_ex2 : form_of "unsigned? long" = Some [AOpt [AWord "unsigned"]; AWord "long"] /\
  forall r, ~ HasForm [AOpt [AWord "unsigned"]; AWord "long"] (str "short x") r.
Proof.
  split; [vm_compute; reflexivity|]. intros r H. apply reads_opt_inv in H. destruct H as [H|H]; cbn [app] in H;
  (eapply reads_word_inv in H; [|eapply (at_term Short); [exact Logic.I|vm_compute; reflexivity]]); destruct H as [H _]; discriminate H.
Qed.
Example C59_ex3 : In ("DefaultValue"%string, "34.23"%string) examples /\ In ("ExtendedAttributeIdentList"%string, "Exposed=(Window,Worker)"%string) examples /\
  length examples = 20.
Proof. split; [unfold examples; cbn [In]; tauto|]. split; [unfold examples; cbn [In]; tauto|reflexivity]. Qed.

(** ** C60: the regular expressions in the documentation *)
(** The literals and identifiers are what the regular expressions in their documentation say, longest match first, between blanks. *)
Theorem C60_regexes : forall n f e s rest v, In (n, f) regexes -> n <> "HexLit"%string -> rx_of f = (e, ""%string) ->
  (RunsTo (Ty n []) s rest v <->
   exists w x w', s = w ++ x ++ w' ++ rest /\ Blank w /\ Longest (Matches e) (x ++ w' ++ rest) x (w' ++ rest) /\ Blank w' /\ NoBlank rest /\
     v = VData n "" [("0"%string, VStr (content n x))]).
Proof. exact regexes_hold. Qed.
Theorem C60_hex_refuted : exists f s rest v, In ("HexLit"%string, f) regexes /\ RunsTo (Ty "HexLit" []) s rest v /\
  ~ Lexes "HexLit" (fst (rx_of f)) s rest v.
Proof. exact hex_regex_refuted. Qed.
Theorem C60_read : regexes = flat_map doc_regex (flat_map (fun f => file_docs (snd f)) sources) /\
  map fst regexes = ["Identifier"; "DecLit"; "HexLit"; "OctLit"; "StringLit"; "FloatValueLit"]%string /\
  map (fun x => snd (rx_of (snd x))) regexes = [""; ""; ")"; ""; ""; ""]%string.
Proof. exact (conj regexes_from regexes_read). Qed.
Example C60_ex : In ("OctLit"%string, "-?0[0-7]*"%string) regexes /\
  RunsTo (Ty "OctLit" []) (str " -0178") (str "8") (VData "OctLit" "" [("0"%string, VStr (str "-017"))]) /\
  Matches (fst (rx_of "-?0[0-7]*")) (str "-017") /\ ~ Matches (fst (rx_of "-?0[0-7]*")) (str "-0178").
Proof.
  split; [unfold regexes; cbn [In]; tauto|].
  assert (R : RunsTo (Ty "OctLit" []) (str " -0178") (str "8") (VData "OctLit" "" [("0"%string, VStr (str "-017"))])).
  { apply (RunsTo_exact _ _ _ _ _ _ _ Imp_OctLit). eexists. split; [vm_compute; reflexivity|vm_compute; reflexivity]. }
  split; [exact R|]. split.
  - apply (proj2 (rx_oct (str "-017"))). exists [45%N], (str "17"). split; [reflexivity|]. split; [right; reflexivity|]. repeat constructor; discriminate.
  - intros H. apply (proj1 (rx_oct (str "-0178"))) in H. destruct H as (m & w & E & [-> | ->] & Hw); [discriminate E|]. injection E as <-.
    inversion Hw as [|? ? _ K]; inversion K as [|? ? _ L]; inversion L as [|? ? [_ M] _]. apply M. reflexivity.
Qed.

(** ** C61: the declarations are the grammar *)
(** The result of parsing is fixed by the declarations that are read from the source.  A struct is its fields in turn. *)
Theorem C61_structs : forall ds x vs fs args, In (IStruct ds x vs fs) crate_items -> existsb (String.eqb x) by_hand = false -> is_terminal x = false ->
  length args = length vs -> Forall (fun u => exists A p enc, Modelled u A p enc) args ->
  let ts := map (fun f => subst (combine vs args) (snd f)) fs in
  (forall s r v, gives_ok (Ty x args) s r v <-> exists xs, InTurn ts s r xs /\ v = VData x "" (combine (map fst fs) xs)) /\
  (forall s p k, gives_err (Ty x args) s p k <-> StopsAt ts s p k).
Proof. exact struct_in_turn. Qed.
(** An enum is its first variant that can be read. *)
Theorem C61_enums : forall ds x vs, In (IEnum ds x vs) crate_items ->
  (forall s r v, gives_ok (Ty x []) s r v <-> FirstOf x s vs r v) /\
  (forall s p k, gives_err (Ty x []) s p k <-> NoneOf s vs /\ p = s /\ k = KAlt).
Proof. exact enum_first. Qed.
Theorem C61_option : forall t, Known t ->
  (forall s r x, gives_ok (Ty "Option" [t]) s r x <->
     (exists v, gives_ok t s r v /\ x = VCon "Some" [v]) \/ ((exists p k, gives_err t s p k) /\ r = s /\ x = VCon "None" [])) /\
  (forall s p k, ~ gives_err (Ty "Option" [t]) s p k).
Proof. exact option_gives. Qed.
Theorem C61_box : forall t, Known t ->
  (forall s r x, gives_ok (Ty "Box" [t]) s r x <-> exists v, gives_ok t s r v /\ x = VCon "Box::new" [v]) /\
  (forall s p k, gives_err (Ty "Box" [t]) s p k <-> gives_err t s p k).
Proof. exact box_gives. Qed.
Theorem C61_tuples : forall ts, Forall Known ts -> length ts = 2 \/ length ts = 3 ->
  (forall s r x, gives_ok (TyTuple ts) s r x <-> exists vs, InTurn ts s r vs /\ x = VTup vs) /\
  (forall s p k, gives_err (TyTuple ts) s p k <-> StopsAt ts s p k).
Proof. exact tuple_gives. Qed.
Theorem C61_vec : forall t, Known t -> Consuming t ->
  (forall s r x, gives_ok (Ty "Vec" [t]) s r x <-> exists vs, SourceDecl2.Many t s r vs /\ x = VVec vs) /\
  (forall s p k, ~ gives_err (Ty "Vec" [t]) s p k).
Proof. exact vec_gives. Qed.
Theorem C61_punctuated : forall t u d, Known t -> Consuming t -> Known u -> Consuming u -> default u = Some d ->
  (forall s r x, gives_ok (Ty "Punctuated" [t; u]) s r x <->
     ((exists p k, gives_err t s p k) /\ r = s /\ x = list_of "Punctuated" [] d)
     \/ (exists m v vs, gives_ok t s m v /\ More t u m r vs /\ x = list_of "Punctuated" (v :: vs) d)) /\
  (forall s p k, ~ gives_err (Ty "Punctuated" [t; u]) s p k).
Proof. exact punctuated_gives. Qed.
Theorem C61_nonempty : forall t u d, Known t -> Consuming t -> Known u -> Consuming u -> default u = Some d ->
  (forall s r x, gives_ok (Ty "PunctuatedNonEmpty" [t; u]) s r x <->
     exists m v m' vs, gives_ok t s m v /\ More t u m m' vs /\ x = list_of "PunctuatedNonEmpty" (v :: vs) d
       /\ ((exists w, gives_ok u m' r w) \/ ((exists p k, gives_err u m' p k) /\ r = m'))) /\
  (forall s p k, gives_err (Ty "PunctuatedNonEmpty" [t; u]) s p k <-> gives_err t s p k).
Proof. exact nonempty_gives. Qed.
(** The hypotheses hold for everything that is modelled. *)
Theorem C61_known : forall t A P enc, ImplFor t A P enc -> Known t /\ (Parser true A P -> Consuming t).
Proof. exact (fun t A P enc H => conj (ImplFor_Known t A P enc H) (modelled_consuming t A P enc H)). Qed.
(** The two declarations that are not of this form; a default value is read after [optional] only. *)
Theorem C61_noargs :
  (forall s r x, gives_ok (Ty "ExtendedAttributeNoArgs" []) s r x <->
     exists v, gives_ok (Ty "Identifier" []) s r v /\ x = VData "ExtendedAttributeNoArgs" "" [("0"%string, v)]) /\
  (forall s p k, gives_err (Ty "ExtendedAttributeNoArgs" []) s p k <-> gives_err (Ty "Identifier" []) s p k).
Proof. exact noargs_gives. Qed.
Theorem C61_single :
  (forall s r x, gives_ok (Ty "SingleArgument" []) s r x <->
     exists m a o t i d, InTurn single_types s m [a; o; t; i] /\ SingleDefault o m r d /\ x = single_value a o t i d) /\
  (forall s p k, gives_err (Ty "SingleArgument" []) s p k <-> StopsAt single_types s p k).
Proof. exact single_gives. Qed.
(** The conversions: every [impl From] makes a variant of its argument, and every variant has exactly one. *)
Theorem C61_from : forall a b y e, In (IFrom a b y e) crate_items ->
  exists ds x vs v, In (IEnum ds x vs) crate_items /\ In (v, a) vs /\ b = Ty x []
    /\ forall fuel cl te self w, eval fuel cl te self [(y, Some w)] e = Val (VData x v [("0"%string, w)]).
Proof. exact from_variant. Qed.
Theorem C61_variants : forall ds x vs v t, In (IEnum ds x vs) crate_items -> In (v, t) vs ->
  exists y e, In (IFrom t (Ty x []) y e) crate_items
    /\ (forall y' e', In (IFrom t (Ty x []) y' e') crate_items -> y' = y /\ e' = e)
    /\ forall fuel cl te self w, eval fuel cl te self [(y, Some w)] e = Val (VData x v [("0"%string, w)]).
Proof. exact variant_from. Qed.
(** How many there are. *)
Example C61_ex1 :
  length (filter (fun i => match i with IStruct _ x _ _ => negb (existsb (String.eqb x) by_hand || is_terminal x) | _ => false end) crate_items) = 57 /\
  length (filter (fun i => match i with IEnum _ _ _ => true | _ => false end) crate_items) = 25 /\
  length (filter (fun i => match i with IFrom _ _ _ _ => true | _ => false end) crate_items) = 123.
Proof. vm_compute. auto. Qed.
(** A declaration, and what it says about a text. *)
Example C61_ex2 : exists ds, In (IStruct ds "VariadicArgument" [] [("attributes", Ty "Option" [Ty "Bracketed" [Ty "Punctuated" [Ty "ExtendedAttribute" []; Ty "term::Comma" []]]]); ("type_", Ty "Type" []);
    ("ellipsis", Ty "term::Ellipsis" []); ("identifier", Ty "Identifier" [])]%string) crate_items /\
  InTurn [Ty "Option" [Ty "Bracketed" [Ty "Punctuated" [Ty "ExtendedAttribute" []; Ty "term::Comma" []]]]; Ty "Type" []; Ty "term::Ellipsis" []; Ty "Identifier" []] (str "long... x;") (str ";")
    [VCon "None" []; enc_Type (Type_Single (SingleType_NonAny (NonAnyType_Integer (mkMayBeNull (IntegerType_Long (mkLongType None)) None))));
     VData "term::Ellipsis" "" []; VData "Identifier" "" [("0"%string, VStr (str "x"))]].
Proof.
  assert (E : exists ds, find (fun i => match i with IStruct _ x _ _ => String.eqb x "VariadicArgument" | _ => false end) crate_items =
    Some (IStruct ds "VariadicArgument" [] [("attributes", Ty "Option" [Ty "Bracketed" [Ty "Punctuated" [Ty "ExtendedAttribute" []; Ty "term::Comma" []]]]); ("type_", Ty "Type" []);
      ("ellipsis", Ty "term::Ellipsis" []); ("identifier", Ty "Identifier" [])]%string)) by (eexists; vm_compute; reflexivity).
  destruct E as (ds & E). exists ds. apply find_some in E. destruct E as [E _]. split; [exact E|].
  repeat (econstructor; [eapply modelled_gives_ok; [apply Imp_Modelled; modelled|vm_compute; reflexivity|reflexivity]|]). constructor.
Qed.
Example C61_ex3 : Known (Ty "Definition" []) /\ Consuming (Ty "Definition" []) /\ default (Ty "term::Comma" []) = Some (VData "term::Comma" "" []) /\
  (exists p k, gives_err (Ty "Definition" []) (str "typedef long;") p k) /\
  ~ gives_ok (Ty "Option" [Ty "Definition" []]) (str "typedef long;") [] (VCon "None" []).
Proof.
  assert (K : Known (Ty "Definition" [])) by (eapply ImplFor_Known, Imp_Modelled, M_Definition).
  assert (E : exists p k, gives_err (Ty "Definition" []) (str "typedef long;") p k)
    by (do 2 eexists; eapply modelled_gives_err; [apply Imp_Modelled, M_Definition|vm_compute; reflexivity]).
  split; [exact K|]. split; [eapply modelled_consuming; [apply Imp_Modelled, M_Definition|apply P_Impl; constructor]|].
  split; [vm_compute; reflexivity|]. split; [exact E|]. intros H. apply (proj1 (option_gives _ K)) in H.
  destruct H as [(v & _ & H)|(_ & H & _)]; discriminate H.
Qed.

(** ** C62: the order of the variants *)
(** [overlaps] lists 51 pairs of variants; two variants that are not listed never begin the same text. *)
Theorem C62_apart : forall ds x vs v t w u, In (IEnum ds x vs) crate_items -> In (v, t) vs -> In (w, u) vs -> v <> w ->
  ~ In (x, v, w) overlaps -> ~ In (x, w, v) overlaps -> forall s r a r' b, gives_ok t s r a -> gives_ok u s r' b -> False.
Proof. exact variants_apart. Qed.
(** Two that are listed begin the text beside them, and the enum gives the first of them. *)
Theorem C62_overlap : forall x v w z, In (x, v, w, z) overlap_texts ->
  exists ds vs t u, In (IEnum ds x vs) crate_items /\ SourceOrder.Before (v, t) (w, u) vs /\
    (exists r a, FirstOf x (str z) vs r (VData x v [("0"%string, a)]) /\ gives_ok t (str z) r a) /\ (exists r a, gives_ok u (str z) r a).
Proof. exact (fun x v w z H => proj1 (Forall_forall _ _) overlaps_overlap _ H). Qed.
(** The variants may be put in another order exactly if the listed pairs stay in order. *)
Theorem C62_order : forall ds x vs vs', In (IEnum ds x vs) crate_items -> Permutation vs vs' ->
  ((forall s r a, FirstOf x s vs' r a <-> FirstOf x s vs r a) <-> (forall v w, In (x, v, w) overlaps -> SourceOrder.Before v w (map fst vs'))).
Proof. exact order_exact. Qed.
(** The enums whose order counts, and the others. *)
Example C62_ex1 :
  length overlaps = 51 /\ nodup string_dec (map (fun o => fst (fst o)) overlaps) =
    ["ExtendedAttribute"; "InterfaceMember"; "IntegerLit"; "DefaultValue"; "ConstValue"; "SingleType"; "NonAnyType"; "IntegerType"; "RecordKeyType"; "ConstType"; "ReturnType"; "Definition"]%string /\
  filter (fun x => negb (existsb (fun o => String.eqb x (fst (fst o))) overlaps)) (map enum_name (filter (fun i => match i with IEnum _ _ _ => true | _ => false end) crate_items)) =
    ["Argument"; "IdentifierOrString"; "IterableInterfaceMember"; "AsyncIterableInterfaceMember"; "Special"; "StringifierOrInheritOrStatic"; "StringifierOrStatic"; "FloatLit"; "MixinMember";
     "NamespaceMember"; "Type"; "FloatingPointType"; "UnionMemberType"]%string.
Proof. vm_compute. auto. Qed.
(** The two kinds of arguments can be exchanged; identifiers cannot come first among the types. *)
Example C62_ex2 :
  (exists ds, In (IEnum ds "Argument" [("Single", Ty "SingleArgument" []); ("Variadic", Ty "VariadicArgument" [])]%string) crate_items) /\
  (forall s r a, FirstOf "Argument" s [("Variadic", Ty "VariadicArgument" []); ("Single", Ty "SingleArgument" [])]%string r a <-> gives_ok (Ty "Argument" []) s r a) /\
  (exists ds vs vs', In (IEnum ds "ConstType" vs) crate_items /\ Permutation vs vs' /\ ~ (forall s r a, FirstOf "ConstType" s vs' r a <-> FirstOf "ConstType" s vs r a)).
Proof.
  assert (E : exists ds, find (fun i => match i with IEnum _ x _ => String.eqb x "Argument" | _ => false end) crate_items =
    Some (IEnum ds "Argument" [("Single", Ty "SingleArgument" []); ("Variadic", Ty "VariadicArgument" [])]%string)) by (eexists; vm_compute; reflexivity).
  destruct E as (ds & E). apply find_some in E. destruct E as [E _]. split; [exists ds; exact E|]. split.
  - intros s r a. rewrite (proj1 (enum_first _ _ _ E)). apply (proj2 (order_exact _ _ _ _ E (perm_swap _ _ _))).
    intros v w H. vm_compute in H. decompose sum H; discriminate.
  - assert (F : exists ds i vs, find (fun i => match i with IEnum _ x _ => String.eqb x "ConstType" | _ => false end) crate_items = Some (IEnum ds "ConstType" (i :: vs)) /\
      fst i = "Integer"%string /\ map fst vs = ["FloatingPoint"; "Boolean"; "Byte"; "Octet"; "Identifier"]%string) by (eexists _, _, _; vm_compute; auto).
    destruct F as (ds' & i & vs & F & Fi & Fv). apply find_some in F. destruct F as [F _].
    exists ds', (i :: vs), (vs ++ [i]). split; [exact F|]. split; [apply Permutation_cons_append|]. intros K.
    pose proof (proj1 (order_exact _ _ _ _ F (Permutation_cons_append _ _)) K "Integer"%string "Identifier"%string ltac:(vm_compute; tauto)) as K'. clear K. rename K' into K.
    rewrite map_app, Fv in K. cbn [map app] in K. rewrite Fi in K. apply in_pairs in K. vm_compute in K. decompose sum K; discriminate.
Qed.

(** ** C63: what [Debug] writes *)
(** [debug o v]: the output of the derived [Debug] on the value [v], for any version [o] of the standard library.  It determines the value, even
    when other text follows. *)
Theorem C63_injective : forall o t u v, wt u t -> wt v t -> forall r r', debug o u ++ r = debug o v ++ r' -> u = v /\ r = r'.
Proof. exact (fun o t u v H K => debug_inj o u v t H K). Qed.
(** So the outputs on two results of running [parse] are equal exactly if the trees are. *)
Theorem C63_parse : forall o raw raw', exists N, forall n v v', N <= n ->
  Interp.call n (CFn "parse") [VStr raw] = Val (VCon "Ok" [v]) -> Interp.call n (CFn "parse") [VStr raw'] = Val (VCon "Ok" [v']) ->
  (debug o v = debug o v' <-> v = v').
Proof. exact debug_parse. Qed.
Theorem C63_model : forall o t A P enc, ImplFor t A P enc -> forall x y, debug o (enc x) = debug o (enc y) <-> x = y.
Proof. exact debug_model. Qed.
(** It is one line without tabs, whose characters are printable or in the printable part of ASCII. *)
Theorem C63_chars : forall o t v, wt v t -> Forall (fun c => (printable o c = true /\ c <> 9 /\ c <> 10 /\ c <> 13)%N \/ (32 <= c <= 126)%N) (debug o v).
Proof. exact (fun o t v H => debug_chars o v t H). Qed.
(** All types derive it. *)
Theorem C63_derived : forall i d, In i crate_items -> derives i = Some d -> In "Debug"%string d.
Proof. exact (fun i d H K => all_derived i d H K "Debug"%string ltac:(vm_compute; tauto)). Qed.
(** A definition; the same with another name of the inherited interface. *)
Definition ascii_version : version := {| printable := fun c => N.leb 32 c && N.leb c 126; quote_escaped := false; zero_escaped := true |}.
Definition debug_of (s : text) : text := match Interp.call 60 (CFn "parse") [VStr s] with Val (VCon _ [v]) => debug ascii_version v | _ => [] end.
Example C63_ex1 : debug_of (str "interface A : _B {};") =
  str "[Interface(InterfaceDefinition { attributes: None, interface: Interface, identifier: Identifier(""A""), inheritance: Some(Inheritance { colon: Colon, identifier: Identifier(""B"") }), members: Braced { open_brace: OpenBrace, body: [], close_brace: CloseBrace }, semi_colon: SemiColon })]".
Proof. vm_compute. reflexivity. Qed.
Example C63_ex2 : debug_of (str "interface A : B {};") = debug_of (str " interface A:_B{}; ") /\ debug_of (str "interface A : B {};") <> debug_of (str "interface A : C {};").
Proof. vm_compute. split; [reflexivity|discriminate]. Qed.
(** A string with a line break, a backslash and a character outside ASCII. *)
Example C63_ex3 : debug ascii_version (VData "StringLit" "" [("0"%string, VStr (str "a\b" ++ [10; 960]%N))]) = str "StringLit(""a\\b\n\u{3c0}"")" /\
  wt (VData "StringLit" "" [("0"%string, VStr (str "a\b" ++ [10; 960]%N))]) (Ty "StringLit" []).
Proof. split; [vm_compute; reflexivity|]. rewrite (C54_values _ _ _ _ (Imp_Modelled _ _ _ _ M_StringLit)). eexists (str "a\b" ++ [10; 960]%N). reflexivity. Qed.
(** What the program in /repo/README.md:40-48 prints. *)
Example C63_ex4 : debug_of (str "
        interface Window {
            readonly attribute Storage sessionStorage;
        };
    ") =
  str "[Interface(InterfaceDefinition { attributes: None, interface: Interface, identifier: Identifier(""Window""), inheritance: None, members: Braced { open_brace: OpenBrace, body: " ++
  str "[Attribute(AttributeInterfaceMember { attributes: None, modifier: None, readonly: Some(ReadOnly), attribute: Attribute, type_: AttributedType { attributes: None, " ++
  str "type_: Single(NonAny(Identifier(MayBeNull { type_: Identifier(""Storage""), q_mark: None }))) }, identifier: Identifier(""sessionStorage""), semi_colon: SemiColon })], " ++
  str "close_brace: CloseBrace }, semi_colon: SemiColon })]".
Proof. vm_compute. reflexivity. Qed.

(** ** C64: where [Copy] is derived *)
(** [Copies t]: [t] is [Copy] by the declarations.  [Copy] may be derived only if all fields are [Copy] when the type arguments are; so it is wherever it is
    derived. *)
Theorem C64_struct : forall ds n vs fields, In (IStruct ds n vs fields) crate_items -> In "Copy"%string ds ->
  forall args, length args = length vs -> Forall Copies args -> Forall (fun f => Copies (subst (combine vs args) (snd f))) fields.
Proof. exact struct_copy. Qed.
Theorem C64_enum : forall ds n vs, In (IEnum ds n vs) crate_items -> In "Copy"%string ds -> Forall (fun v => Copies (snd v)) vs.
Proof. exact (fun ds n vs H K => enum_copy ds n vs H (or_introl K)). Qed.
(** A value that can be copied has no vector and no box inside. *)
Theorem C64_flat : forall t v, Copies t -> wt v t -> SourceDerive.flat v = true.
Proof. exact copies_flat. Qed.
(** Conversely [Copy] is derived wherever it can be, except for one enum: every other type has a value with a vector or a box, in the result of
    running [parse] on some text. *)
Theorem C64_needed : forall i n, In i crate_items -> (exists ds vs fields, i = IStruct ds n vs fields /\ ~ In "Copy"%string ds) \/
    (exists ds vs, i = IEnum ds n vs /\ ~ In "Copy"%string ds /\ n <> "ConstType"%string) ->
  exists raw v args w, (exists N, forall k, N <= k -> Interp.call k (CFn "parse") [VStr raw] = Val (VCon "Ok" [v])) /\
    PartOf w (Ty n args) v (Ty "Vec" [Ty "Definition" []]) /\ SourceDerive.flat w = false.
Proof. exact not_copy_needed. Qed.
(** "[Copy] is derived wherever it can be": not for [ConstType]. *)
Theorem C64_everywhere_refuted : exists ds n vs, In (IEnum ds n vs) crate_items /\ ~ In "Copy"%string ds /\
  Forall (fun v => Copies (snd v)) vs /\ (forall v, wt v (Ty n []) -> SourceDerive.flat v = true).
Proof. exact const_type_copy. Qed.
Example C64_ex1 : Copies (Ty "MayBeNull" [Ty "IntegerType" []]) /\ Copies (Ty "Parenthesized" [TyTuple [Ty "bool" []; Ty "Identifier" []]]) /\
  ~ Copies (Ty "Type" []) /\ ~ Copies (Ty "ConstType" []).
Proof. exact copies_examples. Qed.
Example C64_ex2 : length (filter (fun i => match derives i with Some d => SourceDerive.has "Copy" d | None => false end) crate_items) = 119 /\
  length (flat_map not_copied crate_items) = 58.
Proof. vm_compute. auto. Qed.

(** ** C65: what [Hash] gives to the hasher *)
(** [hashed m v]: the bytes that the derived [Hash] writes for the value [v] on the machine [m] (width and order of the bytes of a [usize]).  They determine
    the value, even when other bytes follow; [in_memory] says that strings are UTF-8 and that lengths fit in a [usize]. *)
Theorem C65_injective : forall m t u v, 0 < width m -> wt u t -> wt v t -> in_memory m u = true -> in_memory m v = true ->
  forall r r', hashed m u ++ r = hashed m v ++ r' -> u = v /\ r = r'.
Proof. exact (fun m t u v H => hash_inj m u v t H). Qed.
(** So equal trees, and only they, give the same bytes. *)
Theorem C65_model : forall m t A P enc, 0 < width m -> ImplFor t A P enc -> forall x y, in_memory m (enc x) = true -> in_memory m (enc y) = true ->
  (hashed m (enc x) = hashed m (enc y) <-> x = y).
Proof. exact hash_model. Qed.
(** All types derive it; all enums have more than one variant, so that the number of the variant is written. *)
Theorem C65_derived : forall i d, In i crate_items -> derives i = Some d -> In "Hash"%string d.
Proof. exact (fun i d H K => all_derived i d H K "Hash"%string ltac:(vm_compute; tauto)). Qed.
Theorem C65_enums : forall ds n vs, In (IEnum ds n vs) crate_items -> 2 <= length vs.
Proof. exact enums_two. Qed.
Definition small_machine : machine := {| width := 2; big := false |}.
Definition hashed_of (s : text) : bytes := match Interp.call 60 (CFn "parse") [VStr s] with Val (VCon _ [v]) => if in_memory small_machine v then hashed small_machine v else [] | _ => [] end.
(** One definition, of the variant 2: no attributes, the name, no base, no members. *)
Example C65_ex1 : hashed_of (str "interface A {};") = [1; 0; 2; 0; 0; 0; 65; 255; 0; 0; 0; 0]%N.
Proof. vm_compute. reflexivity. Qed.
(** Names next to each other are kept apart. *)
Example C65_ex2 : hashed_of (str "ab includes c;") <> [] /\ hashed_of (str "ab includes c;") <> hashed_of (str "a includes bc;").
Proof. vm_compute. split; discriminate. Qed.

(** ** C66: every name in the source means one declaration *)
(** The crate is read as one list of items in which a name is found by itself, without the module. [files]: the items and the [use] declarations of each file.
    A name that an item uses is declared in the file, imported from the module that declares it, or a term; and no other file declares the name. Or it is a name
    of the standard library or of nom, then the file does not import another one of this name, and no file declares it. *)
Theorem C66_names : forall f i n, In f files -> In i (SourceNames.items f) -> In n (names i) ->
  (exists g, In g files /\ Means f n g /\ forall h, In h files -> Declares h n -> h = g) \/
  ((In n ["Option"; "Box"; "Vec"; "str"; "bool"]%string \/ exists h, In h files /\ In ["nom"; "character"; n]%string (inner h)) /\
   (forall h, In h files -> ~ Declares h n) /\ ~ exists p, In (p ++ [n]) (imports f)).
Proof. exact names_mean. Qed.
(** No name is declared twice in the crate, in one file or in two. *)
Theorem C66_once : NoDup (flat_map (fun f => flat_map declares (SourceNames.items f)) files).
Proof. exact declared_once. Qed.
(** The imports from modules of the crate are declared there. *)
Theorem C66_imports : forall f q m n, In f files -> In q ["crate"; "self"]%string -> In [q; m; n] (imports f) -> exists g, In g files /\ file_name g = m /\ Declares g n.
Proof. exact imports_declared. Qed.
(** The files are the files of the crate; their items are the items that all other theorems are about. *)
Theorem C66_read : files = map read_file sources /\ map (Crate.res_item SourceNames.all_items) SourceNames.all_items = crate_items.
Proof. exact (conj files_read files_items). Qed.
(** [Default] in src/argument.rs is the one of src/common.rs, not the trait of the standard library. *)
Example C66_ex1 : exists f g i, In f files /\ In g files /\ file_name f = "argument"%string /\ file_name g = "common"%string /\ In i (SourceNames.items f) /\ In "Default"%string (names i) /\ Means f "Default" g.
Proof.
  exists (nth 4 files (hd (read_file ("", "")%string) files)), (nth 6 files (hd (read_file ("", "")%string) files)).
  eexists. split; [do 4 right; left; reflexivity|]. split; [do 6 right; left; reflexivity|]. split; [reflexivity|]. split; [reflexivity|].
  split; [|split; [|apply (means_ok _ _ _ (or_intror (or_intror (or_intror (or_intror (or_introl eq_refl))))) (or_intror (or_intror (or_intror (or_intror (or_intror (or_intror (or_introl eq_refl)))))))); vm_compute; reflexivity]].
  - do 2 right. left. reflexivity.
  - vm_compute. tauto.
Qed.

(** ** C67: the variables of macros stay apart *)
(** rustc keeps the variables of a macro apart from the variables of its arguments; the reader of Rust.v puts the tokens together. [own_crate]: the crate read
    with macros in which each variable bound by a template got a name with an apostrophe, another one for each rule and each level of recursion.
    Every parser and function of it has the same result on every input and at every depth. *)
Theorem C67_same : forall n f args, call_of own_crate n f args = Interp.call n f args.
Proof. exact hygiene. Qed.
(** [own_crate] is what the reader makes of the source. *)
Theorem C67_read : own_crate = own_items.
Proof. exact own_read. Qed.
(** Item for item, the two readings differ in the names of bound variables only; and any two lists of items of which this holds run alike. *)
Theorem C67_alpha : alpha_items own_crate crate_items = true.
Proof. exact own_alpha. Qed.
Theorem C67_alike : forall its its', alpha_items its its' = true -> forall n f args, call_of its n f args = call_of its' n f args.
Proof. exact call_alpha. Qed.
(** The other way round: a name that a template uses without binding it (a function, a module) is not the name of any variable of the source. *)
Theorem C67_capture : forall m rs p t x, In (m, rs) all_macros -> In (p, t) rs -> In x (free_idents t) -> forall i, In i own_crate -> ~ In x (item_bound i).
Proof. exact no_capture. Qed.
(** The parser of [EnumDefinition]: the input and the rest have names of the macro, the fields keep theirs. *)
Example C67_ex1 : exists e, In (Crate.IParse [] (Crate.Ty "EnumDefinition" []) "input'__ast_struct','''''''''" e) own_crate /\
  In "i'__ast_struct''','''''"%string (bound e) /\ In "identifier"%string (bound e) /\ ~ In "i"%string (bound e).
Proof.
  assert (K : existsb (fun i => match i with Crate.IParse [] (Crate.Ty n []) x e => String.eqb n "EnumDefinition" && String.eqb x "input'__ast_struct','''''''''" &&
    existsb (String.eqb "i'__ast_struct''','''''") (bound e) && existsb (String.eqb "identifier") (bound e) && negb (existsb (String.eqb "i") (bound e)) | _ => false end) own_crate = true) by (vm_compute; reflexivity).
  apply existsb_exists in K. destruct K as [i [Hi K]]. destruct i as [| | | |[|? ?] [n [|? ?]|?] x e| |]; try discriminate K.
  repeat (apply andb_prop in K; destruct K as [K ?]). apply String.eqb_eq in K, H2. subst. exists e. split; [exact Hi|].
  apply existsb_exists in H1, H0. destruct H1 as [? [? E1]], H0 as [? [? E0]]. apply String.eqb_eq in E1, E0. subst. repeat split; try assumption.
  intros C. apply negb_true_iff in H. assert (existsb (String.eqb "i") (bound e) = true) by (apply existsb_exists; eexists; split; [exact C|reflexivity]). congruence.
Qed.
(** A template that would bind a variable which its argument uses is told apart. *)
Example C67_ex2 :
  alpha_items [Crate.IFn "f" ["x"%string] (Crate.EBlock (Crate.SLet (Crate.PVar "y'm'") (Crate.EVar "x") Crate.SEnd) (Crate.EVar "y"))]
              [Crate.IFn "f" ["x"%string] (Crate.EBlock (Crate.SLet (Crate.PVar "y") (Crate.EVar "x") Crate.SEnd) (Crate.EVar "y"))] = false.
Proof. vm_compute. reflexivity. Qed.
(** A free name of a template: [sp] in [ws!]. *)
Example C67_ex3 : exists rs p t, In ("ws"%string, rs) all_macros /\ In (p, t) rs /\ In "sp"%string (free_idents t).
Proof. do 3 eexists. split; [do 6 right; left; reflexivity|]. split; [left; reflexivity|]. vm_compute. tauto. Qed.

(** ** C68: brackets match *)
From Verif Require Import Brackets.
(** Outside of strings and comments every bracket of an accepted text is closed by its own kind, properly nested. *)
Theorem C68_balanced : forall raw defs ts, parse raw = Parsed defs -> Toks raw ts -> Balanced ts.
Proof. exact parse_balanced. Qed.
(** What [Definitions::parse] reads of any text is balanced, whatever follows. *)
Theorem C68_prefix : forall s rest defs, parse_as e_Definitions s = Ok rest defs -> exists ts, Ats ts s rest /\ Balanced ts.
Proof. exact definitions_balanced. Qed.
(** Balanced can be decided with a stack. *)
Theorem C68_stack : forall ts, Balanced ts <-> opened [] ts = Some [].
Proof. exact Balanced_exact. Qed.
(** A semicolon is outside of all brackets or directly inside of braces, never in parentheses, square or angle brackets. *)
Theorem C68_semicolons : forall raw defs ts a b, parse raw = Parsed defs -> Toks raw ts -> ts = a ++ TPunct ";" :: b ->
  opened [] a = Some [] \/ opened [] a = Some ["{"%string].
Proof. exact semicolons. Qed.
(** Braces are outside of all brackets, except for the default value [{}]. *)
Theorem C68_braces : forall raw defs ts a b, parse raw = Parsed defs -> Toks raw ts -> ts = a ++ TPunct "{" :: b ->
  opened [] a = Some [] \/ exists r, b = TPunct "}" :: r.
Proof. exact braces. Qed.
(** Definition for definition: tokens without semicolon, then a semicolon; or a body in braces, in which each member ends with its only semicolon. *)
Theorem C68_outline : forall raw defs ts, parse raw = Parsed defs -> Toks raw ts -> exists tss, ts = concat tss /\ Forall2 Outline defs tss.
Proof. exact parse_outline. Qed.
(** There are as many semicolons as definitions and members. *)
Theorem C68_count : forall raw defs ts, parse raw = Parsed defs -> Toks raw ts ->
  length (filter semi ts) = length defs + list_sum (map (fun d => match members d with Some n => n | None => 0 end) defs).
Proof. exact count_semicolons. Qed.
Example C68_ex1 : exists defs ts, parse (str "interface A{any f((long or[X]B)x,optional C y={});stringifier;};enum E{""}"",""("",};") = Parsed defs /\
  Toks (str "interface A{any f((long or[X]B)x,optional C y={});stringifier;};enum E{""}"",""("",};") ts /\ map members defs = [Some 2; None] /\
  length (filter semi ts) = 4 /\ length ts = 37.
Proof.
  eexists. eexists. split; [vm_compute; reflexivity|]. split; [apply Toks_lex; split; [vm_compute; reflexivity|discriminate]|].
  repeat split; vm_compute; reflexivity.
Qed.
(** A bracket closed by one of another kind. *)
Example C68_ex2 : opened [] [word "typedef"; TPunct "("; word "A"; word "or"; word "B"; TPunct "]"; word "C"; TPunct ";"] = None.
Proof. reflexivity. Qed.

(** ** C69: strings are slices of the input *)
From Verif Require Import SourceSlices.
(** Run any parser or function of the source on a text, to any depth: each string anywhere in what it returns (the tree, the rest) is a contiguous piece of that text. *)
Theorem C69_slices : forall n f s v, Interp.call n f [VStr s] = Val v -> forall x, Occurs x v -> exists a b, s = a ++ x ++ b.
Proof. exact slices. Qed.
(** So is the position in an error. *)
Theorem C69_errors : forall n f s i k, Interp.call n f [VStr s] = Val (verr (Error i k)) \/ Interp.call n f [VStr s] = Val (verr (Failure i k)) -> exists a b, s = a ++ i ++ b.
Proof. exact error_slices. Qed.
(** No string literal of the source is a value: all of them are patterns handed to the parsers of nom. *)
Theorem C69_literals : forall i, In i crate_items -> match i with IParse _ _ _ b | IFn _ _ b => clean b = true | _ => True end.
Proof. exact crate_clean. Qed.
(** A string that is escaped nowhere and trimmed nowhere: spaces inside the quotes stay, the quotes are cut off. *)
Example C69_ex1 : exists v, Interp.call 40 (CFn "parse") [VStr (str "enum A { "" b "" };")] = Val v /\ Occurs (str " b ") v /\ Occurs (str "A") v.
Proof.
  eexists. split; [vm_compute; reflexivity|]. split.
  - eapply O_con; [left; reflexivity|]. eapply O_vec; [left; reflexivity|]. eapply O_data; [left; reflexivity|]. eapply O_data; [do 3 right; left; reflexivity|].
    eapply O_data; [right; left; reflexivity|]. eapply O_data; [left; reflexivity|]. eapply O_vec; [left; reflexivity|]. eapply O_data; [left; reflexivity|]. apply O_str.
  - eapply O_con; [left; reflexivity|]. eapply O_vec; [left; reflexivity|]. eapply O_data; [left; reflexivity|]. eapply O_data; [do 2 right; left; reflexivity|]. eapply O_data; [left; reflexivity|]. apply O_str.
Qed.
(** A parser which returns a literal of its own would not do this. *)
Example C69_ex2 : let e := EDone (EVar "i") (EStr "long") in
  clean e = false /\ Interp.eval 0 (fun _ _ => Interp.Stuck) [] "" [("i"%string, Some (VStr (str "LONG x")))] e = Val (vok (str "LONG x") (VStr (str "long"))) /\
  ~ exists a b, str "LONG x" = a ++ str "long" ++ b.
Proof.
  split; [reflexivity|]. split; [reflexivity|]. intros (a & b & H).
  assert (In 108%N (str "LONG x")) by (rewrite H; apply in_or_app; right; left; reflexivity). vm_compute in H0. intuition discriminate.
Qed.
Example C69_ex3 : Interp.call 40 (CParse (Ty "EnumDefinition" [])) [VStr (str "enum A B")] = Val (verr (Error (str "B") KTag)).
Proof. vm_compute. reflexivity. Qed.

(** ** C70: the depth of calls does not matter *)
From Verif Require Import SourceDepth.
(** [call n] gives up ([Stuck]) beyond depth [n]. With more depth: the same result, unless it had given up. *)
Theorem C70_depth : forall n m f args, n <= m -> Interp.call n f args = Interp.Stuck \/ Interp.call n f args = Interp.call m f args.
Proof. exact call_le. Qed.
(** Two depths at which it did not give up: one result. *)
Theorem C70_once : forall f args n m, Interp.call n f args <> Interp.Stuck -> Interp.call m f args <> Interp.Stuck -> Interp.call n f args = Interp.call m f args.
Proof. exact call_once. Qed.
(** With C53: at every depth, running [fn parse] of the source gives up or gives what the model says, for every text; for large depths it does not give up (C53_parse). *)
Theorem C70_parse : forall n raw, Interp.call n (CFn "parse") [VStr raw] = Interp.Stuck \/ Interp.call n (CFn "parse") [VStr raw] = outcome_answer (parse raw).
Proof. intros n raw. exact (call_final _ _ _ (parse_source raw) n). Qed.
(** The same for every implementation of [Parse]. *)
Theorem C70_impls : forall t A P enc, ImplFor t A P enc -> forall n i, Interp.call n (CParse t) [VStr i] = Interp.Stuck \/ Interp.call n (CParse t) [VStr i] = answer enc (P i).
Proof. intros t A P enc H n i. exact (call_final _ _ _ (implements_source t A P enc H i) n). Qed.
(** The least depth for a text; beyond it nothing changes. *)
Example C70_ex1 : Interp.call 7 (CFn "parse") [VStr (str "enum A { ""b"" };")] = Interp.Stuck /\
  Interp.call 8 (CFn "parse") [VStr (str "enum A { ""b"" };")] <> Interp.Stuck /\
  Interp.call 8 (CFn "parse") [VStr (str "enum A { ""b"" };")] = Interp.call 60 (CFn "parse") [VStr (str "enum A { ""b"" };")].
Proof. vm_compute. split; [reflexivity|]. split; [discriminate|reflexivity]. Qed.
(** In general a program can see its depth: here a call that gives up makes a predicate false, so that another text is taken. The source has no such predicate ([mono]). *)
Example C70_ex2 : let e := ENom "take_while" (EClo (PVar "c") (ECall "f" (Cons (EVar "c") Nil))) (EVar "i") in
  let run cl := Interp.eval 0 cl [] "" [("i"%string, Some (VStr (str "ab")))] e in
  mono e = false /\ run (fun _ _ => Interp.Stuck) = Val (vok (str "ab") (VStr [])) /\ run (fun _ _ => Val (VBool true)) = Val (vok [] (VStr (str "ab"))).
Proof. vm_compute. auto. Qed.

(** ** Assumptions *)
Print Assumptions C01_terminates.
Print Assumptions C01_parse_returns.
Print Assumptions C02_suffix.
Print Assumptions C03_errors.
Print Assumptions C04_Vec.
Print Assumptions C04_Definitions.
Print Assumptions C05_parse_ok.
Print Assumptions C05_otherwise_panics.
Print Assumptions C05_never_Err.
Print Assumptions C05_malformed_is_Err_refuted.
Print Assumptions C06_sound.
Print Assumptions C06_exact.
Print Assumptions C06_Definitions_exact.
Print Assumptions C07_complete.
Print Assumptions C07_printed.
Print Assumptions C07_range.
Print Assumptions C08_layout.
Print Assumptions C08_tokens_unique.
Print Assumptions C08_around.
Print Assumptions C09_unambiguous.
Print Assumptions C10_reparse.
Print Assumptions C10_print_injective.
Print Assumptions C11_progress.
Print Assumptions C11_no_many0_error.
Print Assumptions C11_no_separated_list_error.
Print Assumptions C12_identifier.
Print Assumptions C12_identifier_fails.
Print Assumptions C13_keyword.
Print Assumptions C13_count.
Print Assumptions C14_exclusive.
Print Assumptions C14_keywords_exclusive.
Print Assumptions C15_dec.
Print Assumptions C15_oct.
Print Assumptions C15_integer.
Print Assumptions C15_dec_disjoint.
Print Assumptions C16_hex.
Print Assumptions C16_hex_documented_refuted.
Print Assumptions C17_float.
Print Assumptions C17_float_fails.
Print Assumptions C17_not_integer.
Print Assumptions C18_string.
Print Assumptions C19_blank.
Print Assumptions C19_unique.
Print Assumptions C20_trailing_comment_refuted.
Print Assumptions C20_line.
Print Assumptions C20_closed.
Print Assumptions C20_block.
Print Assumptions C21_blank.
Print Assumptions C21_blank_accepted_refuted.
Print Assumptions C22_punctuated.
Print Assumptions C22_instances.
Print Assumptions C23_punctuated_non_empty.
Print Assumptions C23_instances.
Print Assumptions C23_enum.
Print Assumptions C24_default_optional.
Print Assumptions C25_attributes.
Print Assumptions C26_record_keys.
Print Assumptions C27_integer_type.
Print Assumptions C28_nullable.
Print Assumptions C28_any.
Print Assumptions C28_promise.
Print Assumptions C28_any_word_refuted.
Print Assumptions C29_kind.
Print Assumptions C29_decided.
Print Assumptions C29_exclusive.
Print Assumptions C29_takes.
Print Assumptions C29_exclusive_refuted.
Print Assumptions C30_interface.
Print Assumptions C30_mixin.
Print Assumptions C30_namespace.
Print Assumptions C30_dictionary.
Print Assumptions C30_definition.
Print Assumptions C31_concatenation.
Print Assumptions C31_division.
Print Assumptions C32_slices.
Print Assumptions C33_tokens.
Print Assumptions C33_pieces.
Print Assumptions C34_two_members_refuted.
Print Assumptions C34_one_member_refuted.
Print Assumptions C35_last.
Print Assumptions C35_each.
Print Assumptions C36_escaped.
Print Assumptions C37_polynomial_refuted.
Print Assumptions C37_exponential.
Print Assumptions C38_linear.
Print Assumptions C38_unbounded.
Print Assumptions C39_rest.
Print Assumptions C40_exponential.
Print Assumptions C40_parse_exponential.
Print Assumptions C40_depth.
Print Assumptions C40_polynomial.
Print Assumptions C40_nesting.
Print Assumptions C40_linear.
Print Assumptions C41_enums.
Print Assumptions C41_terms.
Print Assumptions C41_identifiers.
Print Assumptions C41_strings.
Print Assumptions C42_split.
Print Assumptions C42_unique.
Print Assumptions C42_computed.
Print Assumptions C43_utf8.
Print Assumptions C43_safe.
Print Assumptions C43_same.
Print Assumptions C43_parse.
Print Assumptions C44_replace.
Print Assumptions C44_any_text.
Print Assumptions C45_sound.
Print Assumptions C45_exact.
Print Assumptions C45_arguments.
Print Assumptions C45_attributes.
Print Assumptions C46_resume.
Print Assumptions C46_monotone.
Print Assumptions C46_prefix.
Print Assumptions C47_reserved_refuted.
Print Assumptions C47_types.
Print Assumptions C47_after_long.
Print Assumptions C48_scan.
Print Assumptions C48_two_phases.
Print Assumptions C49_total.
Print Assumptions C49_str.
Print Assumptions C50_linear.
Print Assumptions C50_tokens.
Print Assumptions C51_accepts.
Print Assumptions C51_fragment.
Print Assumptions C51_standard_refuted.
Print Assumptions C52_relaxed.
Print Assumptions C52_rejects.
Print Assumptions C52_standard_refuted.
Print Assumptions C52_decidable.
Print Assumptions C53_read.
Print Assumptions C53_parse.
Print Assumptions C53_impls.
Print Assumptions C53_covered.
Print Assumptions C53_parsers.
Print Assumptions C54_values.
Print Assumptions C54_injective.
Print Assumptions C54_declared.
Print Assumptions C54_parse_typed.
Print Assumptions C54_typed.
Print Assumptions C54_order.
Print Assumptions C54_model_order.
Print Assumptions C54_derived.
Print Assumptions C55_live.
Print Assumptions C55_unused.
Print Assumptions C56_transparent.
Print Assumptions C56_kept.
Print Assumptions C56_once.
Print Assumptions C56_first.
Print Assumptions C56_parse.
Print Assumptions C56_field.
Print Assumptions C56_once_argument_refuted.
Print Assumptions C57_join.
Print Assumptions C57_cut.
Print Assumptions C58_unit.
Print Assumptions C58_integration.
Print Assumptions C58_read.
Print Assumptions C59_forms.
Print Assumptions C59_forms_refuted.
Print Assumptions C59_all_forms.
Print Assumptions C59_terms.
Print Assumptions C59_terms_refuted.
Print Assumptions C59_examples.
Print Assumptions C59_programs.
Print Assumptions C59_read.
Print Assumptions C60_regexes.
Print Assumptions C60_hex_refuted.
Print Assumptions C60_read.
Print Assumptions C61_structs.
Print Assumptions C61_enums.
Print Assumptions C61_option.
Print Assumptions C61_box.
Print Assumptions C61_tuples.
Print Assumptions C61_vec.
Print Assumptions C61_punctuated.
Print Assumptions C61_nonempty.
Print Assumptions C61_known.
Print Assumptions C61_noargs.
Print Assumptions C61_single.
Print Assumptions C61_from.
Print Assumptions C61_variants.
Print Assumptions C62_apart.
Print Assumptions C62_overlap.
Print Assumptions C62_order.
Print Assumptions C63_injective.
Print Assumptions C63_parse.
Print Assumptions C63_model.
Print Assumptions C63_chars.
Print Assumptions C63_derived.
Print Assumptions C64_struct.
Print Assumptions C64_enum.
Print Assumptions C64_flat.
Print Assumptions C64_needed.
Print Assumptions C64_everywhere_refuted.
Print Assumptions C65_injective.
Print Assumptions C65_model.
Print Assumptions C65_derived.
Print Assumptions C65_enums.
Print Assumptions C66_names.
Print Assumptions C66_once.
Print Assumptions C66_imports.
Print Assumptions C66_read.
Print Assumptions C67_same.
Print Assumptions C67_read.
Print Assumptions C67_alpha.
Print Assumptions C67_alike.
Print Assumptions C67_capture.
Print Assumptions C68_balanced.
Print Assumptions C68_prefix.
Print Assumptions C68_stack.
Print Assumptions C68_semicolons.
Print Assumptions C68_braces.
Print Assumptions C68_outline.
Print Assumptions C68_count.
Print Assumptions C69_slices.
Print Assumptions C69_errors.
Print Assumptions C69_literals.
Print Assumptions C70_depth.
Print Assumptions C70_once.
Print Assumptions C70_parse.
Print Assumptions C70_impls.
