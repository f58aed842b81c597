(** * What a failing parser reports *)
From Coq Require Import String Ascii NArith Arith Bool List Lia.
From Verif Require Import Nom Lex Ast Grammar Spec LexFacts NumFacts TokFacts RunFacts Shapes TermFacts Api ApiFacts.
Import ListNotations.
Open Scope list_scope.

(** All enums of the crate, with their parsers: every [enum] inside [ast_types!]. *)
Inductive EnumParser : forall A : Type, parser text A -> Prop :=
| E_IntegerLit : EnumParser _ p_IntegerLit
| E_FloatLit : EnumParser _ p_FloatLit
| E_DefaultValue : EnumParser _ (parse_as (PTerm TmDefaultValue))
| E_ConstValue : EnumParser _ (parse_as (PTerm TmConstValue))
| E_IntegerType : EnumParser _ (parse_as e_IntegerType)
| E_FloatingPointType : EnumParser _ (parse_as e_FloatingPointType)
| E_ConstType : EnumParser _ (parse_as e_ConstType)
| E_NonAnyType : EnumParser _ (parse_as e_NonAnyType)
| E_SingleType : EnumParser _ (parse_as e_SingleType)
| E_Type : EnumParser _ (parse_as e_Type)
| E_RecordKeyType : EnumParser _ (parse_as e_RecordKeyType)
| E_ReturnType : EnumParser _ (parse_as e_ReturnType)
| E_UnionMemberType : EnumParser _ (parse_as e_UnionMemberType)
| E_Argument : EnumParser _ (parse_as e_Argument)
| E_IdentifierOrString : EnumParser _ (parse_as e_IdentifierOrString)
| E_ExtendedAttribute : EnumParser _ (parse_as e_ExtendedAttribute)
| E_StringifierOrInheritOrStatic : EnumParser _ (parse_as e_StringifierOrInheritOrStatic)
| E_StringifierOrStatic : EnumParser _ (parse_as e_StringifierOrStatic)
| E_Special : EnumParser _ (parse_as e_Special)
| E_IterableInterfaceMember : EnumParser _ (parse_as e_IterableInterfaceMember)
| E_AsyncIterableInterfaceMember : EnumParser _ (parse_as e_AsyncIterableInterfaceMember)
| E_InterfaceMember : EnumParser _ (parse_as e_InterfaceMember)
| E_MixinMember : EnumParser _ (parse_as e_MixinMember)
| E_NamespaceMember : EnumParser _ (parse_as e_NamespaceMember)
| E_Definition : EnumParser _ (parse_as e_Definition).

(** [p] fails with [Alt] at its own input. *)
Definition AltErr {A} (p : parser text A) : Prop := forall i e, p i = Err e -> e = Error i KAlt.
Lemma AltErr_end A : AltErr (@alt_end text A). Proof. intros i e [= <-]. auto. Qed.
Lemma AltErr_or A (p q : parser text A) : Good Suf p -> AltErr q -> AltErr (alt_or p q).
Proof.
  intros Hp Hq i e. unfold alt_or. specialize (Hp i). destruct (p i) as [r a|[]|]; try contradiction; try discriminate. apply Hq.
Qed.
Lemma AltErr_PAlt n A (l : list (pexp A)) : AltErr (trun n A (PAlt l)).
Proof.
  induction l as [|p l IH]; cbn [PAlt]; intros i e.
  - rewrite run_end. apply AltErr_end.
  - rewrite run_or. apply AltErr_or; auto. apply trun_Good.
Qed.
Lemma AltErr_parse_as A (l : list (pexp A)) : AltErr (parse_as (PAlt l)).
Proof. intros i e. apply AltErr_PAlt. Qed.
Lemma AltErr_fine A (p q : parser text A) : Fine p -> AltErr q -> AltErr (alt_or p q).
Proof. intros H. apply AltErr_or, Fine_Good; auto. Qed.
Lemma AltErr_text_sem A (t : terminal A) : AltErr (text_sem A t) -> AltErr (parse_as (PTerm t)).
Proof. intros H i e. unfold parse_as. rewrite run_term. apply H. Qed.
Theorem enum_error A (p : parser text A) : EnumParser A p -> forall s e, p s = Err e -> e = Error s KAlt.
Proof.
  intros H. change (AltErr p). destruct H; try apply AltErr_parse_as; try apply AltErr_text_sem;
    repeat (apply AltErr_fine; [auto with fine|]); apply AltErr_end.
Qed.
Lemma enum_is_parser A (p : parser text A) : EnumParser A p -> Parser true A p.
Proof. destruct 1; first [apply P_Impl; constructor|constructor]. Qed.

(** ** The lexical layer *)
Lemma ws_error A (p : parser text A) i e : ws p i = Err e -> Fine p ->
  exists w b, i = w ++ b /\ Blank w /\ NoBlank b /\ p b = Err e.
Proof.
  unfold ws, bind, ret. destruct (sp_spec i) as (w & b & -> & -> & Hw & Hb). intros E HF. exists w, b. repeat split; auto.
  destruct (p b) as [r a|e'|]; [|congruence|discriminate].
  destruct (sp_spec r) as (w' & b' & E' & _). rewrite E' in E. discriminate.
Qed.
Lemma tag_error t i e : tag t i = Err e -> e = Error i KTag.
Proof. unfold tag. destruct (strip_prefix t i); congruence. Qed.
Lemma ident_tag_error t i e : ident_tag t i = Err e -> e = Error i KTag.
Proof.
  unfold ident_tag. destruct (tag t i) as [r v|e'|] eqn:E; [|intros [= <-]; eapply tag_error; eauto|discriminate].
  destruct r as [|c r]; [discriminate|]. destruct (_ || _); [intros [= <-]; auto|discriminate].
Qed.
(** A term fails at the first character that is not blank. *)
Theorem term_error t s e : p_term t s = Err e -> exists w b, s = w ++ b /\ Blank w /\ NoBlank b /\ e = Error b KTag.
Proof.
  unfold p_term. intros H.
  assert (K : (if term_is_name t then ws (ident_tag (str (term_text t))) s else ws (tag (str (term_text t))) s) = Err e).
  { destruct (term_is_name t); unfold bind, ret in H; cbv beta in H;
      match type of H with match ?x with _ => _ end = _ => destruct x end; congruence. }
  destruct (term_is_name t); apply ws_error in K as (w & b & -> & Hw & Hb & K); auto with fine; exists w, b; repeat split; auto;
    [eapply ident_tag_error|eapply tag_error]; eauto.
Qed.
(** An identifier fails behind blanks and an underscore. *)
Theorem identifier_error s e : p_Identifier s = Err e -> exists w u b, s = w ++ u ++ b /\ Blank w /\ NoBlank (u ++ b) /\
  (u = [95%N] \/ u = [] /\ hd_error b <> Some 95%N) /\ e = Error b KTakeWhile1.
Proof.
  unfold p_Identifier. intros H. apply ws_error in H as (w & b & -> & Hw & Hb & H); [|auto 15 with fine].
  unfold bind, recognize, opt, ret, pchar in H. exists w. destruct b as [|c b]; cbv beta iota in H.
  - cbn in H. injection H as <-. exists [], []. repeat split; auto. right. split; auto. discriminate.
  - destruct (N.eqb c (chr "_")) eqn:Ec; cbv iota in H.
    + apply N.eqb_eq in Ec. subst c. exists [95%N], b. repeat split; auto. unfold take_while1, take_while in H.
      destruct (span is_ascii_alphabetic b) as [[|x a] b'] eqn:E; [injection H as <-; auto|]. destruct (span is_ident_char b'); discriminate.
    + exists [], (c :: b). repeat split; auto.
      * right. split; auto. cbn. intros [= ->]. discriminate.
      * unfold take_while1, take_while in H.
        destruct (span is_ascii_alphabetic (c :: b)) as [[|x a] b'] eqn:E; [injection H as <-; auto|]. destruct (span is_ident_char b'); discriminate.
Qed.
(** A string fails in front of what is not a quotation mark, or at the end of the text. *)
Theorem string_error s e : p_StringLit s = Err e -> exists w b, s = w ++ b /\ Blank w /\ NoBlank b /\
  (hd_error b <> Some 34%N /\ e = Error b KChar \/ (exists x, b = 34%N :: x /\ ~ In 34%N x) /\ e = Error [] KChar).
Proof.
  unfold p_StringLit. intros H. apply ws_error in H as (w & b & -> & Hw & Hb & H); [|auto 15 with fine]. exists w, b. repeat split; auto.
  unfold bind, ret in H. unfold pchar at 1 in H. destruct b as [|c b].
  - injection H as <-. left. split; auto. discriminate.
  - destruct (N.eqb c (chr """")) eqn:Ec.
    + apply N.eqb_eq in Ec. subst c. right. unfold take_while in H.
      assert (K : forall b, match span (fun c : char => negb (N.eqb c (chr """"))) b with
        | (a, []) => ~ In 34%N b | (a, x :: _) => x = 34%N end).
      { clear. induction b as [|c b IH]; cbn [span]; [intros []|]. destruct (N.eqb c (chr """")) eqn:Ec; cbn [negb].
        - apply N.eqb_eq in Ec. exact Ec.
        - destruct (span _ b) as [a [|x r]]; auto. intros [E|E]; [subst c; discriminate|auto]. }
      specialize (K b). destruct (span (fun c : char => negb (N.eqb c (chr """"))) b) as [a [|x r]].
      * cbn in H. injection H as <-. eauto.
      * subst x. cbn in H. discriminate.
    + injection H as <-. left. split; auto. cbn. intros [= ->]. discriminate.
Qed.
