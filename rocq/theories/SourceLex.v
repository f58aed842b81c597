(** * The model is what the source says: whitespace, terminals, identifiers, literals *)
From Coq Require Import String Ascii NArith Arith Bool List Lia.
From Verif Require Import Nom Lex Ast Grammar RunFacts Source Crate Interp Embed Faithful.
Import ListNotations.
Open Scope string_scope.
Open Scope list_scope.

(** [P n] for all large [n]. *)
Definition Ev (P : nat -> Prop) : Prop := exists N, forall n, N <= n -> P n.
Lemma ev_and (P Q : nat -> Prop) : Ev P -> Ev Q -> Ev (fun n => P n /\ Q n).
Proof. intros [a H] [b K]. exists (a + b). intros n Hn. split; [apply H|apply K]; lia. Qed.
Lemma ev_ge k : Ev (fun n => k <= n).
Proof. exists k. auto. Qed.
Lemma ev_S (P Q : nat -> Prop) : Ev P -> (forall n, P n -> Q (S n)) -> Ev Q.
Proof. intros [a H] K. exists (S a). intros [|n] Hn; [lia|]. apply K, H. lia. Qed.
Lemma ev_mono (P Q : nat -> Prop) : Ev P -> (forall n, P n -> Q n) -> Ev Q.
Proof. intros [a H] K. exists a. auto. Qed.

(** With fuel [n], [<t as Parse>::parse] in the source does what [P] does. *)
Definition At {A} (n : nat) (P : parser text A) (t : rty) (enc : A -> value) : Prop :=
  forall i, Ref enc (P i) (call n (CParse t) [VStr i]).
(** [<t as Parse>::parse] in the source does what [P] does. *)
Definition Src {A} (P : parser text A) (t : rty) (enc : A -> value) : Prop := Ev (fun n => At n P t enc).

Lemma call_parse n t v te x b : find_parse t = Some (te, x, b) ->
  call (S n) (CParse t) [v] = eval n (call n) te (ty_name t) [(x, Some v)] b.
Proof. intros H. cbn [call]. rewrite H. reflexivity. Qed.
Lemma call_fn n g v x b : lookup g fns = Some (x, b) -> call (S n) (CFn g) [v] = eval n (call n) [] "" [(x, Some v)] b.
Proof. intros H. cbn [call]. rewrite H. reflexivity. Qed.
Ltac enter :=
  match goal with
  | |- context [call (S ?n) (CParse ?t) [?v]] =>
      match eval lazy in (find_parse t) with
      | Some (?te, ?x, ?b) => rewrite (call_parse n t v te x b eq_refl)
      end
  | |- context [call (S ?n) (CFn ?t) [?v]] =>
      match eval lazy in (lookup t fns) with
      | Some (?x, ?b) => rewrite (call_fn n t v x b eq_refl)
      end
  end.
(** [()]. *)
Definition vunit (_ : unit) : value := VTup [].
Ltac pred := intro; unfold is_ws, is_ident_char, in_range, vbool; cbn; repeat (match goal with |- context [is_ascii_alphanumeric ?a] => destruct (is_ascii_alphanumeric a) | |- context [N.eqb ?a ?b] => destruct (N.eqb a b) | |- context [N.leb ?a ?b] => destruct (N.leb a b) end; cbn); reflexivity.
Ltac lx :=
  first
    [ eapply (ref_done _ _ _ _ unit vunit); reflexivity
    | eapply ref_done; [reflexivity|reflexivity]
    | eapply ref_tag; [reflexivity|reflexivity]
    | eapply ref_char; [reflexivity|reflexivity]
    | eapply ref_until; [reflexivity|reflexivity]
    | eapply ref_one_of; [reflexivity|reflexivity]
    | eapply ref_while; [reflexivity|pred]
    | eapply ref_while1; [reflexivity|pred]
    | eapply ref_step; [reflexivity| |intros ? ?]
    | eapply ref_alt; [reflexivity| |]
    | eapply ref_altend; reflexivity
    | eapply ref_opt; [reflexivity|]
    | eapply ref_map_; [reflexivity| |reflexivity] ].

Lemma src_sp n i : Ref VStr (sp i) (call (S n) (CFn "sp") [VStr i]).
Proof.
  enter. unfold sp, many0t. eapply (ref_recognize _ _ _ _ _ (enc_Vec vunit)); [reflexivity|]. cbn [inp].
  eapply ref_many0; [reflexivity| |lia]. intro j. unfold sp_item, line_comment, ws_run, block_comment, pmap.
  eapply ref_alt; [reflexivity| |eapply ref_alt; [reflexivity| |eapply ref_alt; [reflexivity| |eapply ref_altend; reflexivity]]].
  - repeat lx.
  - eapply (ref_map_ _ _ _ _ _ _ VStr vunit); [reflexivity| |reflexivity]. lx.
  - repeat lx.
Qed.

(** [ws!]: src/whitespace.rs:21-33. *)
Lemma ref_ws A (enc : A -> value) n te self e i (P : parser text A) p j :
  eval (S n) (call (S n)) te self e i = Val (VStr j) -> (forall r v, Ref enc (P r) (eval (S n) (call (S n)) te self (inp r (inp r (("_", Some (VStr v)) :: e))) p)) ->
  Ref enc (ws P j) (eval (S n) (call (S n)) te self e
    (EStep i (ECall "sp" (Cons (EVar "$in") Nil)) "_" (EStep (EVar "$in") p "s" (EStep (EVar "$in") (ECall "sp" (Cons (EVar "$in") Nil)) "_" (EDone (EVar "$in") (EVar "s")))))).
Proof.
  intros Hi H. unfold ws. eapply ref_step; [exact Hi|eapply ref_sp; [reflexivity|apply src_sp]|]. intros r v.
  eapply ref_step; [reflexivity|apply H|]. intros r' v'. eapply ref_step; [reflexivity|eapply ref_sp; [reflexivity|apply src_sp]|]. intros r'' v''.
  eapply ref_done; reflexivity.
Qed.
(** [ident_tag!]: src/term.rs:2-21. *)
Lemma ref_ident_tag n te self e s j : lookup "$in" e = Some (Some (VStr j)) ->
  Ref VStr (ident_tag (str s) j) (eval n (call n) te self e
    (EMatch (ENom "tag" (EStr s) (EVar "$in"))
      (Arm (PCon "Err" [PVar "e"]) (ECon "Err" (Cons (EVar "e") Nil))
        (Arm (PCon "Ok" [PTuple [PVar "i"; PVar "o"]])
          (EBlock
            (SLet (PVar "res") (ECon "Ok" (Cons (ETuple (Cons (EVar "i") (Cons (EVar "o") Nil))) Nil))
              (SIfLet (PCon "Some" [PVar "c"]) (EMethod (EMethod (EVar "i") "as_bytes" Nil) "first" Nil)
                (SIf
                  (EBin "||" (ECall "is_alphanumeric" (Cons (EVar "c") Nil))
                    (EBin "||" (EBin "==" (EVar "c") (EChar "_")) (EBin "==" (EVar "c") (EChar "-"))))
                  (SSet "res" (ECon "Err" (Cons (ECon "NomErr::Error" (Cons (ETuple (Cons (EVar "$in") (Cons (ECon "ErrorKind::Tag" Nil) Nil))) Nil)) Nil)) SEnd) SEnd) SEnd))
            (EVar "res")) NoArm)))).
Proof.
  intros Hj. pose proof (ref_tag n (call n) te self e (EVar "$in") s (str s) j) as Ht. rewrite eval_EVar, Hj in Ht. specialize (Ht eq_refl eq_refl).
  rewrite eval_EMatch. unfold ident_tag. destruct (tag (str s) j) as [r v|er|]; cbn [Ref] in Ht; try rewrite Ht; [|reflexivity|exact Logic.I].
  destruct r as [|c r]; [reflexivity|]. unfold chr. cbn. rewrite Hj. unfold vbool. cbn.
  assert (E : forall k, match k with 0 => S k | S l => k - l end = 1) by (intros [|k]; lia).
  destruct (is_alphanumeric (first_byte c)); cbn; [|destruct (N.eqb (first_byte c) 95); cbn; [|destruct (N.eqb (first_byte c) 45); cbn]];
    rewrite ?Nat.sub_diag; cbn [skipn leave length]; unfold leave; cbn [length]; cbn; rewrite ?E, ?Nat.sub_diag; reflexivity.
Qed.

(** The name of the type that [term!] stands for (src/term.rs:314-606). *)
Definition term_type (t : term) : string :=
  match t with
  | OpenParen => "term::OpenParen" | CloseParen => "term::CloseParen" | OpenBracket => "term::OpenBracket" | CloseBracket => "term::CloseBracket"
  | OpenBrace => "term::OpenBrace" | CloseBrace => "term::CloseBrace" | Comma => "term::Comma" | Minus => "term::Minus"
  | Dot => "term::Dot" | Ellipsis => "term::Ellipsis" | Colon => "term::Colon" | SemiColon => "term::SemiColon"
  | LessThan => "term::LessThan" | Assign => "term::Assign" | GreaterThan => "term::GreaterThan" | QMark => "term::QMark"
  | Asterisk => "term::Asterisk" | Or => "term::Or" | Optional => "term::Optional" | Async => "term::Async"
  | Attribute => "term::Attribute" | Callback => "term::Callback" | Const => "term::Const" | Deleter => "term::Deleter"
  | Dictionary => "term::Dictionary" | Enum => "term::Enum" | Getter => "term::Getter" | Includes => "term::Includes"
  | Inherit => "term::Inherit" | Interface => "term::Interface" | Iterable => "term::Iterable" | Maplike => "term::Maplike"
  | Namespace => "term::Namespace" | Partial => "term::Partial" | Required => "term::Required" | Setlike => "term::Setlike"
  | Setter => "term::Setter" | Static => "term::Static" | Stringifier => "term::Stringifier" | Typedef => "term::Typedef"
  | Unrestricted => "term::Unrestricted" | Symbol => "term::Symbol" | NegInfinity => "term::NegInfinity" | ByteString => "term::ByteString"
  | DOMString => "term::DOMString" | FrozenArray => "term::FrozenArray" | Infinity => "term::Infinity" | NaN => "term::NaN"
  | USVString => "term::USVString" | Any => "term::Any" | Boolean => "term::Boolean" | Byte => "term::Byte"
  | Double => "term::Double" | False_ => "term::False" | Float => "term::Float" | Long => "term::Long"
  | Null => "term::Null" | Object => "term::Object" | Octet => "term::Octet" | Sequence => "term::Sequence"
  | Short => "term::Short" | True_ => "term::True" | Unsigned => "term::Unsigned" | Undefined => "term::Undefined"
  | Record_ => "term::Record" | ArrayBuffer => "term::ArrayBuffer" | DataView => "term::DataView" | Int8Array => "term::Int8Array"
  | Int16Array => "term::Int16Array" | Int32Array => "term::Int32Array" | Uint8Array => "term::Uint8Array" | Uint16Array => "term::Uint16Array"
  | Uint32Array => "term::Uint32Array" | Uint8ClampedArray => "term::Uint8ClampedArray" | Float32Array => "term::Float32Array" | Float64Array => "term::Float64Array"
  | ArrayBufferView => "term::ArrayBufferView" | BufferSource => "term::BufferSource" | Promise => "term::Promise" | Error_ => "term::Error"
  | ReadOnly => "term::ReadOnly" | Mixin => "term::Mixin" | Implements => "term::Implements" | LegacyCaller => "term::LegacyCaller"
  | Constructor => "term::Constructor"
  end.
(** The type of a terminal. *)
Definition tterm (t : term) : rty := Ty (term_type t) [].
(** The value of a terminal. *)
Definition enc_term (t : term) : unit -> value := vu (term_type t).
Lemma src_term n t : At (S (S n)) (p_term t) (tterm t) (enc_term t).
Proof.
  intro i. unfold p_term, tterm, enc_term.
  destruct t; cbn [term_type term_is_name term_text]; enter;
    (eapply ref_step; [reflexivity| |intros r v; eapply ref_done; reflexivity]);
    (eapply ref_ws; [reflexivity|intros r v]; first [eapply ref_tag; reflexivity | apply ref_ident_tag; reflexivity]).
Qed.

(** src/common.rs:76-92. *)
Ltac tuple_struct := apply ref_ret; eapply ref_field; [|intros r v; eapply ref_ok; reflexivity].
Lemma src_Identifier n : At (S (S n)) p_Identifier (Ty "Identifier" []) enc_Identifier.
Proof.
  intro i. enter. tuple_struct. eapply ref_ws; [reflexivity|intros r v].
  eapply ref_step; [reflexivity| |intros r' v']. { repeat lx. }
  eapply ref_step; [reflexivity| |intros r'' v''; eapply ref_done; reflexivity].
  eapply (ref_recognize _ _ _ _ _ vunit); [reflexivity|]. repeat lx.
Qed.
(** src/literal.rs:5-24. *)
Lemma src_DecLit n : At (S (S n)) p_DecLit (Ty "DecLit" []) enc_DecLit.
Proof.
  intro i. enter. tuple_struct. eapply ref_ws; [reflexivity|intros r v].
  eapply (ref_recognize _ _ _ _ _ vunit); [reflexivity|]. repeat lx.
Qed.
Lemma src_HexLit n : At (S (S n)) p_HexLit (Ty "HexLit" []) enc_HexLit.
Proof.
  intro i. enter. tuple_struct. eapply ref_ws; [reflexivity|intros r v].
  eapply (ref_recognize _ _ _ _ _ vunit); [reflexivity|]. repeat lx.
Qed.
Lemma src_OctLit n : At (S (S n)) p_OctLit (Ty "OctLit" []) enc_OctLit.
Proof.
  intro i. enter. tuple_struct. eapply ref_ws; [reflexivity|intros r v].
  eapply (ref_recognize _ _ _ _ _ vunit); [reflexivity|]. repeat lx.
Qed.
Lemma src_StringLit n : At (S (S n)) p_StringLit (Ty "StringLit" []) enc_StringLit.
Proof. intro i. enter. tuple_struct. eapply ref_ws; [reflexivity|intros r v]. repeat lx. Qed.
Lemma src_FloatValueLit n : At (S (S n)) p_FloatValueLit (Ty "FloatValueLit" []) enc_FloatValueLit.
Proof.
  intro i. enter. tuple_struct. eapply ref_ws; [reflexivity|intros r v].
  eapply (ref_recognize _ _ _ _ _ vunit); [reflexivity|]. unfold exponent. repeat lx.
Qed.
(** An alternative of an enum. *)
Ltac variant H := eapply ref_alt; [reflexivity|eapply ref_map; [reflexivity|eapply ref_parse; [reflexivity|apply H]|reflexivity]|].
Ltac last := eapply ref_altend; reflexivity.
Lemma src_IntegerLit n : At (S (S (S n))) p_IntegerLit (Ty "IntegerLit" []) enc_IntegerLit.
Proof. intro i. enter. unfold p_IntegerLit, pmap. variant src_DecLit. variant src_HexLit. variant src_OctLit. last. Qed.
Lemma src_BooleanLit n : At (S (S (S n))) p_BooleanLit (Ty "BooleanLit" []) enc_BooleanLit.
Proof.
  intro i. enter. tuple_struct. unfold p_BooleanLit, pmap.
  eapply ref_alt; [reflexivity|eapply ref_map_; [reflexivity|eapply ref_parse; [reflexivity|apply (src_term n True_)]|reflexivity]|].
  eapply ref_alt; [reflexivity|eapply ref_map_; [reflexivity|eapply ref_parse; [reflexivity|apply (src_term n False_)]|reflexivity]|].
  last.
Qed.
Lemma src_FloatLit n : At (S (S (S n))) p_FloatLit (Ty "FloatLit" []) enc_FloatLit.
Proof.
  intro i. enter. unfold p_FloatLit, pmap. variant src_FloatValueLit. variant (src_term n NegInfinity). variant (src_term n Infinity). variant (src_term n NaN). last.
Qed.
Lemma src_EmptyArrayLit n : At (S (S (S n))) p_EmptyArrayLit (Ty "EmptyArrayLit" []) (fun _ => enc_EmptyArrayLit).
Proof.
  intro i. enter. unfold p_EmptyArrayLit. eapply ref_field; [eapply ref_parse; [reflexivity|apply (src_term n OpenBracket)]|intros r v].
  eapply ref_field; [eapply ref_parse; [reflexivity|apply (src_term n CloseBracket)]|intros r' v']. eapply ref_ok; reflexivity.
Qed.
Lemma src_EmptyDictionaryLit n : At (S (S (S n))) p_EmptyDictionaryLit (Ty "EmptyDictionaryLit" []) (fun _ => enc_EmptyDictionaryLit).
Proof.
  intro i. enter. unfold p_EmptyDictionaryLit. eapply ref_field; [eapply ref_parse; [reflexivity|apply (src_term n OpenBrace)]|intros r v].
  eapply ref_field; [eapply ref_parse; [reflexivity|apply (src_term n CloseBrace)]|intros r' v']. eapply ref_ok; reflexivity.
Qed.
Lemma src_DefaultValue n : At (S (S (S (S n)))) p_DefaultValue (Ty "DefaultValue" []) enc_DefaultValue.
Proof.
  intro i. enter. unfold p_DefaultValue, pmap. variant src_BooleanLit. variant src_EmptyArrayLit. variant src_EmptyDictionaryLit.
  variant src_FloatLit. variant src_IntegerLit. variant (src_term (S n) Null). variant (src_StringLit (S n)). last.
Qed.
Lemma src_ConstValue n : At (S (S (S (S n)))) p_ConstValue (Ty "ConstValue" []) enc_ConstValue.
Proof. intro i. enter. unfold p_ConstValue, pmap. variant src_BooleanLit. variant src_FloatLit. variant src_IntegerLit. variant (src_term (S n) Null). last. Qed.
