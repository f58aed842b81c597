(** * The shape of all concrete syntax.

    Every definition is a run of elements without semicolon and with balanced braces, then possibly a block of members,
    each a run closed by a semicolon, then a semicolon.  Stated for any property of runs that is closed under the ways
    the printers build runs, so that the induction over the syntax trees is done once. *)
From Coq Require Import String Ascii NArith Arith Bool List Lia.
From Verif Require Import Nom Lex Ast Spec.
Import ListNotations.
Open Scope list_scope.

(** Keywords are names; punctuation other than braces and semicolons. *)
Definition easy (x : gtok) : bool :=
  match x with
  | GKw s => match str s with [] => false | c :: w => is_ascii_alphabetic c && forallb is_ident_char w end
  | GP s => existsb (String.eqb s) ["("; ")"; "["; "]"; ","; "..."; ":"; "<"; "="; ">"; "?"; "*"]%string
  | _ => true
  end.

Section Runs.
  Variable P : list gtok -> Prop.
  Hypothesis Pnil : P [].
  Hypothesis Papp : forall g h, P g -> P h -> P (g ++ h).
  Hypothesis Pone : forall x, easy x = true -> P [x].
  Hypothesis Pbraces : forall g, P g -> P (GP "{" :: g ++ [GP "}"]).

  Lemma Pcons x g : easy x = true -> P g -> P (x :: g).
  Proof. intros. apply (Papp [x]); auto. Qed.
  Lemma Pjoin sep l : easy sep = true -> Forall P l -> P (join sep l).
  Proof.
    intros Hs H. induction H as [|x l Hx Hl IH]; auto. destruct l as [|y l]; auto.
    change (P (x ++ sep :: join sep (y :: l))). apply Papp; auto. apply Pcons; auto.
  Qed.
  Lemma Popt_q q : P (opt_q q). Proof. destruct q; auto. apply Pone. reflexivity. Qed.
  Lemma Popt_kw o s : easy (GKw s) = true -> P (opt_kw o s). Proof. destruct o; cbn [opt_kw]; auto. Qed.

  Ltac pe := repeat first [assumption | apply Papp | apply Pcons; [reflexivity|] | apply Pnil | apply Popt_q |
    apply Popt_kw; reflexivity | apply Pjoin; [reflexivity|] ].

  Lemma Pint t : P (show_IntegerType t).
  Proof. destruct t as [[[[]|]]|[[[]|]]|[[[]|]]]; cbn [show_IntegerType]; pe. Qed.
  Lemma Pfloat t : P (show_FloatingPointType t).
  Proof. destruct t as [[[[]|]]|[[[]|]]]; cbn [show_FloatingPointType]; pe. Qed.
  Lemma Pnull (T : Set) (f : T -> list gtok) m : (forall t, P (f t)) -> P (show_null f m).
  Proof. intros H. destruct m. cbn [show_null]. pe. apply H. Qed.
  Lemma Pkw_null s m : easy (GKw s) = true -> P (show_kw_null s m).
  Proof. intros H. apply Pnull. intros. auto. Qed.
  Lemma Pdefault d : P (show_default d).
  Proof.
    destruct d as [v|]; cbn [show_default]; pe.
    destruct v as [[]| | |[]| | |]; cbn [show_DefaultValue show_bool show_FloatLit]; pe. apply (Pbraces []). auto.
  Qed.
  Lemma Pidstr x : P (show_IdentifierOrString x).
  Proof. destruct x; cbn [show_IdentifierOrString]; pe. Qed.
  Lemma Pnames l : Forall P (map (fun n : Identifier => [GId [] n]) l).
  Proof. induction l; constructor; auto. Qed.
  Lemma Pstrs l : Forall P (map (fun n : StringLit => [GStr n]) l).
  Proof. induction l; constructor; auto. Qed.

  Ltac pp := repeat first [assumption | apply Pint | apply Pfloat | apply Pdefault | apply Pidstr | apply Pnames | apply Pstrs |
    apply Pkw_null; reflexivity | apply Papp | apply Pcons; [reflexivity|] | apply Pnil | apply Popt_q |
    apply Popt_kw; reflexivity | apply Pjoin; [reflexivity|] | apply Pnull; intro ].

  Lemma P_Type : forall t bad, P (show_Type bad t)
  with P_SingleType : forall t bad, P (show_SingleType bad t)
  with P_NonAnyType : forall t bad, P (show_NonAnyType bad t)
  with P_SequenceType : forall t, P (show_SequenceType t)
  with P_FrozenArrayType : forall t, P (show_FrozenArrayType t)
  with P_PromiseType : forall t, P (show_PromiseType t)
  with P_RecordType : forall t, P (show_RecordType t)
  with P_RecordKeyType : forall t, P (show_RecordKeyType t)
  with P_UnionMemberType : forall t, P (show_UnionMemberType t)
  with P_ReturnType : forall t bad, P (show_ReturnType bad t)
  with P_AttributedType : forall t bad, P (show_AttributedType bad t)
  with P_ExtendedAttribute : forall t, P (show_ExtendedAttribute t)
  with P_Argument : forall t, P (show_Argument t).
  Proof.
    - intros [t|[l q]] bad; cbn [show_Type].
      + apply P_SingleType.
      + pe. revert l. fix IH 1. intros [|a l]; constructor; [apply P_UnionMemberType|apply IH].
    - intros [|t] bad; cbn [show_SingleType]; [pe|]. apply P_NonAnyType.
    - intros t bad. destruct t as [p|m|m|m|m|m|m|m|m|m|m|m|m|m|m|m|m|m|m|m|m|m|m|m|m|m|m|m|m]; cbn [show_NonAnyType];
        try (apply Pkw_null; reflexivity).
      + apply P_PromiseType.
      + apply Pnull, Pint.
      + apply Pnull, Pfloat.
      + destruct m as [t q]. pe. apply P_SequenceType.
      + destruct m as [t q]. pe. apply P_FrozenArrayType.
      + destruct m as [t q]. pe. apply P_RecordType.
      + apply Pnull. intros. auto.
    - intros [t]. cbn [show_SequenceType]. pe. apply P_Type.
    - intros [t]. cbn [show_FrozenArrayType]. pe. apply P_Type.
    - intros [t]. cbn [show_PromiseType]. pe. apply P_ReturnType.
    - intros [k t]. cbn [show_RecordType]. pe; [apply P_RecordKeyType|apply P_Type].
    - intros [| | |t]; cbn [show_RecordKeyType]; pe. apply P_NonAnyType.
    - intros [[a t]|[l q]]; cbn [show_UnionMemberType].
      + pe; [destruct a as [l|]; pe|apply P_NonAnyType].
        revert l. fix IH 1. intros [|a l]; constructor; [apply P_ExtendedAttribute|apply IH].
      + pe. revert l. fix IH 1. intros [|a l]; constructor; [apply P_UnionMemberType|apply IH].
    - intros [|t] bad; cbn [show_ReturnType]; pe. apply P_Type.
    - intros [a t] bad. cbn [show_AttributedType]. destruct a as [l|]; pe; [|apply P_Type|apply P_Type].
      revert l. fix IH 1. intros [|a l]; constructor; [apply P_ExtendedAttribute|apply IH].
    - intros [[x l]|[x y l]|[x l]|[x y]|[x]|x]; cbn [show_ExtendedAttribute]; pe.
      + revert l. fix IH 1. intros [|a l]; constructor; [apply P_Argument|apply IH].
      + revert l. fix IH 1. intros [|a l]; constructor; [apply P_Argument|apply IH].
      + apply Pnames.
      + apply Pidstr.
    - intros [[at_ o t x d]|[at_ t x]]; cbn [show_Argument].
      + pe; [destruct at_ as [l|]; pe|apply P_AttributedType|apply Pdefault].
        revert l. fix IH 1. intros [|a l]; constructor; [apply P_ExtendedAttribute|apply IH].
      + pe; [destruct at_ as [l|]; pe|apply P_Type].
        revert l. fix IH 1. intros [|a l]; constructor; [apply P_ExtendedAttribute|apply IH].
  Qed.
  Lemma P_ConstType t : P (show_ConstType t).
  Proof. destruct t; cbn [show_ConstType]; pp. Qed.
  Lemma P_ConstValue v : P (show_ConstValue v).
  Proof. destruct v as [[]|[]| |]; cbn [show_ConstValue show_bool show_FloatLit]; pe. Qed.
  Lemma P_attributes a : P (show_attributes a).
  Proof. destruct a as [l|]; cbn [show_attributes]; pe. induction l; constructor; auto using P_ExtendedAttribute. Qed.
  Lemma P_args l : P (show_args l).
  Proof. unfold show_args; pe. induction l; constructor; auto using P_Argument. Qed.
  Lemma P_opt_args l : P (show_opt_args l).
  Proof. destruct l; cbn [show_opt_args]; auto using P_args. Qed.
  Lemma P_SIS m : P (show_SIS m). Proof. destruct m as [[]|]; cbn [show_SIS]; pe. Qed.
  Lemma P_SS m : P (show_SS m). Proof. destruct m as [[]|]; cbn [show_SS]; pe. Qed.
  Lemma P_Special m : P (show_Special m). Proof. destruct m as [[]|]; cbn [show_Special]; pe. Qed.
  Lemma P_opt_name b n : P (show_opt_name b n).
  Proof. destruct n; cbn [show_opt_name]; unfold name_after; pe. Qed.
  Lemma P_one g : P (show_one g). Proof. unfold show_one; pe. apply P_AttributedType. Qed.
  Lemma P_pair g : P (show_pair g). Proof. unfold show_pair; pe; apply P_AttributedType. Qed.
  Lemma P_inheritance h : P (show_inheritance h). Proof. destruct h as [[]|]; cbn [show_inheritance]; pe. Qed.

  (** A run closed by a semicolon. *)
  Definition Line (g : list gtok) : Prop := exists h, g = h ++ [GP ";"] /\ P h.
  Lemma Line_one : Line [GP ";"]. Proof. exists []. auto. Qed.
  Lemma Line_app g h : P g -> Line h -> Line (g ++ h).
  Proof. intros H (k & -> & Hk). exists (g ++ k). split; auto using app_assoc. Qed.
  Lemma Line_cons x h : easy x = true -> Line h -> Line (x :: h).
  Proof. intros. apply (Line_app [x]); auto. Qed.
  Ltac ln := repeat first [apply Line_one |
    apply Line_app; [first [apply P_attributes|apply P_args|apply P_opt_args|apply P_ConstType|apply P_ConstValue|apply P_SIS|apply P_SS|apply P_Special
      |apply P_opt_name|apply P_one|apply P_pair|apply P_inheritance|apply P_AttributedType|apply P_ReturnType|apply P_Type|apply Pdefault
      |apply Popt_kw; reflexivity]|] | apply Line_cons; [reflexivity|]].

  Lemma L_ConstMember m : Line (show_ConstMember m).
  Proof. destruct m. cbn [show_ConstMember]. ln. Qed.
  Lemma L_StringifierMember m : Line (show_StringifierMember m).
  Proof. destruct m. cbn [show_StringifierMember]. ln. Qed.
  Lemma L_InterfaceMember m : Line (show_InterfaceMember m).
  Proof.
    destruct m as [x|[]|[]|[]|[[]|[]]|[[]|[]]|[]|[]|x]; cbn [show_InterfaceMember show_AttributeInterfaceMember
      show_ConstructorInterfaceMember show_OperationInterfaceMember show_IterableInterfaceMember
      show_AsyncIterableInterfaceMember show_MaplikeInterfaceMember show_SetlikeInterfaceMember]; ln.
    - apply L_ConstMember.
    - apply L_StringifierMember.
  Qed.
  Lemma L_MixinMember m : Line (show_MixinMember m).
  Proof.
    destruct m as [x|[]|[]|x]; cbn [show_MixinMember]; ln; auto using L_ConstMember, L_StringifierMember.
  Qed.
  Lemma L_NamespaceMember m : Line (show_NamespaceMember m).
  Proof. destruct m as [[]|[]|[]]; cbn [show_NamespaceMember]; ln. Qed.
  Lemma L_DictionaryMember m : Line (show_DictionaryMember m).
  Proof. destruct m; cbn [show_DictionaryMember]; ln. Qed.

  (** A definition. *)
  Inductive Block : list gtok -> Prop :=
  | Block_line g : Line g -> Block g
  | Block_body g ls : P g -> Forall Line ls -> Block (g ++ GP "{" :: concat ls ++ [GP "}"; GP ";"]).
  Lemma Block_show {A} (f : A -> list gtok) l : (forall x, Line (f x)) -> Block (show_body f l ++ [GP ";"]).
  Proof.
    intros H. unfold show_body. cbn [app]. rewrite flat_map_concat_map, <- app_assoc. apply (Block_body []); auto.
    induction l; constructor; auto.
  Qed.
  Lemma Block_app g h : P g -> Block h -> Block (g ++ h).
  Proof.
    intros Hg [h' Hh|h' ls Hh Hl]; [apply Block_line, Line_app; auto|].
    rewrite app_assoc. apply Block_body; auto.
  Qed.
  Lemma Block_cons x h : easy x = true -> Block h -> Block (x :: h).
  Proof. intros. apply (Block_app [x]); auto. Qed.
  Ltac bk := repeat first [apply Block_app; [first [apply P_attributes|apply P_inheritance]|] | apply Block_show |
    apply Block_cons; [reflexivity|]].
  Lemma B_Definition d : Block (show_Definition d).
  Proof.
    destruct d as [[]|[]|[]|[]|[]|[]|[]|[]|[]|[]|[]|[]|[]|[]]; cbn [show_Definition];
      try solve [apply Block_line; ln]; bk;
      try apply L_InterfaceMember; try apply L_MixinMember; try apply L_NamespaceMember; try apply L_DictionaryMember.
    apply Block_line. 
    match goal with |- Line (GP "{" :: join _ ?l ++ [GOptComma; _; _]) =>
      exists (GP "{" :: (join (GP ",") l ++ [GOptComma]) ++ [GP "}"]) end.
    split; [cbn; rewrite <- !app_assoc; reflexivity|]. apply Pbraces. pe. apply Pstrs.
  Qed.
End Runs.
