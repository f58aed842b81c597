(** * Brackets

    In an accepted text the brackets match, a semicolon is never inside of parentheses, and there are braces only around the body of a definition and
    in the default value [{}]. *)
From Coq Require Import String Ascii NArith Arith Bool List Lia.
From Verif Require Import Nom Lex Ast Grammar Spec LexFacts NumFacts TokFacts RunFacts Shapes TermFacts Api ApiFacts LexProps
  Tok TokRun TokSound TokComplete TokMembers Shows Exact Nodes Items Print.
Import ListNotations.
Open Scope list_scope.

(** ** Matching brackets *)
(** The four pairs: [Parenthesized], [Bracketed], [Generics] and [Braced] (src/common.rs:29-59). *)
Inductive Pair : string -> string -> Prop :=
| Pair_paren : Pair "(" ")"
| Pair_bracket : Pair "[" "]"
| Pair_angle : Pair "<" ">"
| Pair_brace : Pair "{" "}".
Definition bracket (t : tok) : Prop := exists o c, Pair o c /\ (t = TPunct o \/ t = TPunct c).
Inductive Balanced : list tok -> Prop :=
| Bal_nil : Balanced []
| Bal_tok t ts : ~ bracket t -> Balanced ts -> Balanced (t :: ts)
| Bal_group o c ts us : Pair o c -> Balanced ts -> Balanced us -> Balanced (TPunct o :: ts ++ TPunct c :: us).

(** The same by a stack: the brackets that are open after [ts], the innermost first; [None] if one is closed that is not open. *)
Definition closer (s : string) : option string :=
  if String.eqb s "(" then Some ")"%string else if String.eqb s "[" then Some "]"%string
  else if String.eqb s "<" then Some ">"%string else if String.eqb s "{" then Some "}"%string else None.
Definition closing (s : string) : bool := existsb (String.eqb s) [")"; "]"; ">"; "}"]%string.
Definition push (st : list string) (t : tok) : option (list string) :=
  match t with
  | TPunct s =>
      match closer s with
      | Some _ => Some (s :: st)
      | None => if closing s then match st with
                                  | o :: st' => match closer o with Some c => if String.eqb c s then Some st' else None | None => None end
                                  | [] => None
                                  end
                else Some st
      end
  | _ => Some st
  end.
Fixpoint opened (st : list string) (ts : list tok) : option (list string) :=
  match ts with
  | [] => Some st
  | t :: ts' => match push st t with Some st' => opened st' ts' | None => None end
  end.

Lemma push_open o c st : Pair o c -> push st (TPunct o) = Some (o :: st).
Proof. destruct 1; reflexivity. Qed.
Lemma push_close o c st : Pair o c -> push (o :: st) (TPunct c) = Some st.
Proof. destruct 1; reflexivity. Qed.
Lemma closer_pair o c : closer o = Some c <-> Pair o c.
Proof.
  unfold closer. split; [|destruct 1; reflexivity].
  repeat (destruct (String.eqb o _) eqn:E; [apply String.eqb_eq in E; subst; intros [= <-]; constructor|clear E]). discriminate.
Qed.
Lemma closing_pair s : closing s = true -> exists o, Pair o s.
Proof.
  unfold closing. intros H. apply existsb_exists in H as (x & Hx & E). apply String.eqb_eq in E. subst.
  cbn in Hx. destruct Hx as [<-|[<-|[<-|[<-|[]]]]]; eexists; constructor.
Qed.
Lemma pair_closing o c : Pair o c -> closing c = true.
Proof. destruct 1; reflexivity. Qed.
Lemma push_plain st t : ~ bracket t -> push st t = Some st.
Proof.
  intros H. destruct t as [esc n|s| | | |]; try reflexivity. cbn [push]. destruct (closer s) as [c|] eqn:E.
  - exfalso. apply H. apply closer_pair in E. exists s, c. auto.
  - destruct (closing s) eqn:E'; auto. exfalso. apply H. apply closing_pair in E' as (o & Ho). exists o, s. auto.
Qed.
Lemma push_cases st t st' : push st t = Some st' ->
  (exists o c, Pair o c /\ t = TPunct o /\ st' = o :: st) \/ (exists o c, Pair o c /\ t = TPunct c /\ st = o :: st') \/ (~ bracket t /\ st' = st).
Proof.
  destruct t as [esc n|s| |l|s|s]; cbn [push]; try (intros [= <-]; right; right; split; auto; intros (o & c & H & [K|K]); discriminate K).
  destruct (closer s) as [c|] eqn:E.
  - intros [= <-]. left. exists s, c. apply closer_pair in E. auto.
  - destruct (closing s) eqn:E'.
    + destruct st as [|o st]; [discriminate|]. destruct (closer o) as [c|] eqn:Eo; [|discriminate]. destruct (String.eqb c s) eqn:Ec; [|discriminate].
      apply String.eqb_eq in Ec. subst. intros [= <-]. right. left. exists o, s. apply closer_pair in Eo. auto.
    + intros [= <-]. right. right. split; auto. intros (o & c & H & [[= ->]|[= ->]]).
      * apply closer_pair in H. congruence.
      * apply pair_closing in H. congruence.
Qed.
Lemma opened_app st ts us : opened st (ts ++ us) = match opened st ts with Some st' => opened st' us | None => None end.
Proof. revert st. induction ts as [|t ts IH]; intros st; cbn; auto. destruct (push st t); auto. Qed.
Lemma Balanced_opened ts : Balanced ts -> forall st, opened st ts = Some st.
Proof.
  induction 1 as [|t ts Ht H IH|o c ts us Hp H1 IH1 H2 IH2]; intros st; cbn [opened]; auto.
  - rewrite (push_plain _ _ Ht). auto.
  - rewrite (push_open _ _ _ Hp), opened_app, IH1. cbn [opened]. rewrite (push_close _ _ _ Hp). auto.
Qed.
Lemma Balanced_app ts us : Balanced ts -> Balanced us -> Balanced (ts ++ us).
Proof. induction 1; intros; cbn; auto; [apply Bal_tok; auto|]. rewrite <- app_assoc. apply Bal_group; auto. Qed.
(** What is left of an open stack: balanced pieces between the closing brackets. *)
Inductive Closes : list string -> list tok -> Prop :=
| Closes_nil ts : Balanced ts -> Closes [] ts
| Closes_cons o c st ts us : Pair o c -> Balanced ts -> Closes st us -> Closes (o :: st) (ts ++ TPunct c :: us).
Lemma Closes_front st ts us : Balanced ts -> Closes st us -> Closes st (ts ++ us).
Proof.
  intros Ht H. destruct H; [constructor; apply Balanced_app; auto|]. rewrite app_assoc. econstructor; eauto. apply Balanced_app; auto.
Qed.
Lemma opened_Closes ts : forall st, opened st ts = Some [] -> Closes st ts.
Proof.
  induction ts as [|t ts IH]; intros st H; cbn in H.
  - injection H as ->. repeat constructor.
  - destruct (push st t) as [st'|] eqn:E; [|discriminate]. apply IH in H. apply push_cases in E as [(o & c & Hp & -> & ->)|[(o & c & Hp & -> & ->)|(Hb & ->)]].
    + inversion H as [|o' c' st' ts' us Hp' Hb Hc]; subst.
      assert (E : c' = c) by (apply closer_pair in Hp, Hp'; congruence). subst.
      destruct Hc as [us Hu|o2 c2 st us vs Hp2 Hu Hv].
      * constructor. apply Bal_group; auto.
      * change (Closes (o2 :: st) (TPunct o :: ts' ++ TPunct c :: us ++ TPunct c2 :: vs)).
        replace (TPunct o :: ts' ++ TPunct c :: us ++ TPunct c2 :: vs) with ((TPunct o :: ts' ++ TPunct c :: us) ++ TPunct c2 :: vs)
          by (cbn; rewrite <- app_assoc; reflexivity).
        econstructor; eauto. apply Bal_group; auto.
    + apply (Closes_cons o c st' [] ts); auto. constructor.
    + apply (Closes_front _ [t]); auto. repeat constructor; auto.
Qed.
Theorem Balanced_exact ts : Balanced ts <-> opened [] ts = Some [].
Proof. split; [intros H; apply Balanced_opened; auto|]. intros H. apply opened_Closes in H. inversion H; auto. Qed.

(** ** Runs *)
(** Tokens with matching brackets and without semicolon; braces only as [{}]. *)
Inductive Run : list tok -> Prop :=
| Run_nil : Run []
| Run_tok t ts : ~ bracket t -> t <> TPunct ";" -> Run ts -> Run (t :: ts)
| Run_group o c ts us : Pair o c -> (o = "{"%string -> ts = []) -> Run ts -> Run us -> Run (TPunct o :: ts ++ TPunct c :: us).
Lemma Run_app ts us : Run ts -> Run us -> Run (ts ++ us).
Proof. induction 1; intros; cbn; auto; [apply Run_tok; auto|]. rewrite <- app_assoc. apply Run_group; auto. Qed.
Lemma Run_Balanced ts : Run ts -> Balanced ts.
Proof. induction 1; [apply Bal_nil|apply Bal_tok; auto|apply Bal_group; auto]. Qed.

(** Concrete syntax all of whose texts are runs. *)
Definition Runs (g : list gtok) : Prop := forall i r, Conc g i r -> exists us, i = us ++ r /\ Run us.
Definition plain (x : gtok) : bool := match x with GP s => negb (existsb (String.eqb s) ["("; ")"; "["; "]"; "<"; ">"; "{"; "}"; ";"]%string) | _ => true end.
Lemma plain_tok s : plain (GP s) = true -> ~ bracket (TPunct s) /\ TPunct s <> TPunct ";".
Proof.
  cbn. intros H. apply negb_true_iff in H. split.
  - intros (o & c & Hp & [[= ->]|[= ->]]); destruct Hp; discriminate H.
  - intros [= ->]. discriminate H.
Qed.
Lemma name_tok t : match t with TPunct _ => False | _ => True end -> ~ bracket t /\ t <> TPunct ";".
Proof. intros H. split; [intros (o & c & _ & [->| ->]); exact H|intros ->; exact H]. Qed.
Lemma Pnil : Runs [].
Proof. intros i r H. inversion H; subst. exists []. split; auto. constructor. Qed.
Lemma Papp g h : Runs g -> Runs h -> Runs (g ++ h).
Proof.
  intros Hg Hh i r H. apply Conc_split in H as (j & H1 & H2). apply Hg in H1 as (us & -> & Hu). apply Hh in H2 as (vs & -> & Hv).
  exists (us ++ vs). split; [apply app_assoc|apply Run_app; auto].
Qed.
Lemma Pcons x g : plain x = true -> Runs g -> Runs (x :: g).
Proof.
  intros Hx Hg. apply (Papp [x]); auto. clear g Hg. intros i r H.
  inversion H as [r' E|s g i' r' K|s g i' r' K|b n g i' r' K|b n g i' r' Hn K|b n g i' r' K|b n g i' r' Hn Hf K|g i' r' K|g i' r' K|g i' r' K|l g i' r' K|s g i' r' K|s g i' r' K]; subst;
    inversion K; subst; try solve [exists []; split; [reflexivity|apply Run_nil]];
    (match goal with |- exists us, ?t :: ?r = us ++ ?r /\ _ => exists [t]; split; [reflexivity|] end);
    (apply Run_tok; [| |apply Run_nil]); first [apply name_tok; exact Logic.I|apply plain_tok; first [exact Hx|reflexivity]].
Qed.
Lemma Pgroup o c g h : Pair o c -> o <> "{"%string -> Runs g -> Runs h -> Runs (GP o :: g ++ GP c :: h).
Proof.
  intros Hp Ho Hg Hh i r H. inversion H as [| |s g' i' r' H1| | | | | | | | | |]; subst. apply Conc_split in H1 as (j & H1 & H2).
  inversion H2 as [| |s g' i2 r' H3| | | | | | | | | |]; subst. apply Hg in H1 as (us & -> & Hu). apply Hh in H3 as (vs & -> & Hv).
  exists (TPunct o :: us ++ TPunct c :: vs). split; [cbn; rewrite <- app_assoc; reflexivity|]. apply Run_group; auto. tauto.
Qed.
(** The same with a comma inside. *)
Lemma Pgroup2 o c x g k h : Pair o c -> o <> "{"%string -> plain x = true -> Runs g -> Runs k -> Runs h -> Runs (GP o :: g ++ x :: k ++ GP c :: h).
Proof.
  intros Hp Ho Hx Hg Hk Hh. replace (GP o :: g ++ x :: k ++ GP c :: h) with (GP o :: (g ++ x :: k) ++ GP c :: h) by (rewrite <- app_assoc; reflexivity).
  apply Pgroup; auto. apply Papp; auto. apply Pcons; auto.
Qed.
Lemma Pempty o c h : Pair o c -> Runs h -> Runs (GP o :: GP c :: h).
Proof.
  intros Hp Hh i r H. inversion H as [| |s g' i' r' H1| | | | | | | | | |]; subst. inversion H1 as [| |s g' i2 r' H3| | | | | | | | | |]; subst.
  apply Hh in H3 as (vs & -> & Hv). exists (TPunct o :: [] ++ TPunct c :: vs). split; [reflexivity|]. apply Run_group; auto; constructor.
Qed.
Lemma Pjoin sep l : plain sep = true -> Forall Runs l -> Runs (join sep l).
Proof.
  intros Hs H. induction H as [|x l Hx Hl IH]; [apply Pnil|]. destruct l as [|y l]; auto.
  change (Runs (x ++ sep :: join sep (y :: l))). apply Papp; auto. apply Pcons; auto.
Qed.
Lemma Popt_q q : Runs (opt_q q). Proof. destruct q; [apply Pcons; [reflexivity|]|]; apply Pnil. Qed.
Lemma Popt_kw o s : Runs (opt_kw o s). Proof. destruct o; [apply Pcons; [reflexivity|]|]; apply Pnil. Qed.

Ltac pe := repeat first [assumption | apply Pgroup; [constructor|discriminate| |] | apply Pgroup2; [constructor|discriminate|reflexivity| | |] | apply Papp |
  apply Pcons; [reflexivity|] | apply Pnil | apply Popt_q | apply Popt_kw | apply Pjoin; [reflexivity|] ].

(** ** All concrete syntax *)
Lemma Pint t : Runs (show_IntegerType t).
Proof. destruct t as [[[[]|]]|[[[]|]]|[[[]|]]]; cbn [show_IntegerType]; pe. Qed.
Lemma Pfloat t : Runs (show_FloatingPointType t).
Proof. destruct t as [[[[]|]]|[[[]|]]]; cbn [show_FloatingPointType]; pe. Qed.
Lemma Pnull (T : Set) (f : T -> list gtok) m : (forall t, Runs (f t)) -> Runs (show_null f m).
Proof. intros H. destruct m. cbn [show_null]. pe. apply H. Qed.
Lemma Pkw_null s m : Runs (show_kw_null s m).
Proof. apply Pnull. intros. pe. Qed.
Lemma Pdefault d : Runs (show_default d).
Proof.
  destruct d as [v|]; cbn [show_default]; pe.
  destruct v as [[]| | |[]| | |]; cbn [show_DefaultValue show_bool show_FloatLit]; pe; (apply Pempty; [constructor|apply Pnil]).
Qed.
Lemma Pidstr x : Runs (show_IdentifierOrString x).
Proof. destruct x; cbn [show_IdentifierOrString]; pe. Qed.
Lemma Pnames l : Forall Runs (map (fun n : Identifier => [GId [] n]) l).
Proof. induction l; constructor; auto. pe. Qed.
Lemma Pstrs l : Forall Runs (map (fun n : StringLit => [GStr n]) l).
Proof. induction l; constructor; auto. pe. Qed.

Ltac pp := repeat first [assumption | apply Pgroup; [constructor|discriminate| |] | apply Pint | apply Pfloat | apply Pdefault | apply Pidstr | apply Pnames | apply Pstrs |
  apply Pkw_null | apply Papp | apply Pcons; [reflexivity|] | apply Pnil | apply Popt_q |
  apply Popt_kw | apply Pjoin; [reflexivity|] | apply Pnull; intro ].

Lemma P_Type : forall t bad, Runs (show_Type bad t)
with P_SingleType : forall t bad, Runs (show_SingleType bad t)
with P_NonAnyType : forall t bad, Runs (show_NonAnyType bad t)
with P_SequenceType : forall t, Runs (show_SequenceType t)
with P_FrozenArrayType : forall t, Runs (show_FrozenArrayType t)
with P_PromiseType : forall t, Runs (show_PromiseType t)
with P_RecordType : forall t, Runs (show_RecordType t)
with P_RecordKeyType : forall t, Runs (show_RecordKeyType t)
with P_UnionMemberType : forall t, Runs (show_UnionMemberType t)
with P_ReturnType : forall t bad, Runs (show_ReturnType bad t)
with P_AttributedType : forall t bad, Runs (show_AttributedType bad t)
with P_ExtendedAttribute : forall t, Runs (show_ExtendedAttribute t)
with P_Argument : forall t, Runs (show_Argument t).
Proof.
  - intros [t|[l q]] bad; cbn [show_Type].
    + apply P_SingleType.
    + pe. revert l. fix IH 1. intros [|a l]; constructor; [apply P_UnionMemberType|apply IH].
  - intros [|t] bad; cbn [show_SingleType]; [pe|]. apply P_NonAnyType.
  - intros t bad. destruct t as [p|m|m|m|m|m|m|m|m|m|m|m|m|m|m|m|m|m|m|m|m|m|m|m|m|m|m|m|m]; cbn [show_NonAnyType];
      try (apply Pkw_null).
    + apply P_PromiseType.
    + apply Pnull, Pint.
    + apply Pnull, Pfloat.
    + destruct m as [t q]. pe. apply P_SequenceType.
    + destruct m as [t q]. pe. apply P_FrozenArrayType.
    + destruct m as [t q]. pe. apply P_RecordType.
    + apply Pnull. intros. pe.
  - intros [t]. cbn [show_SequenceType]. pe. apply P_Type.
  - intros [t]. cbn [show_FrozenArrayType]. pe. apply P_Type.
  - intros [t]. cbn [show_PromiseType]. pe. apply P_ReturnType.
  - intros [k t]. cbn [show_RecordType]. pe; [apply P_RecordKeyType|apply P_Type].
  - intros [| | |t]; cbn [show_RecordKeyType]; pe. apply P_NonAnyType.
  - intros [[a t]|[l q]]; cbn [show_UnionMemberType].
    + pe; [destruct a as [l|]; pe|apply P_NonAnyType].
      revert l. fix IH 1. intros [|a l]; constructor; [apply P_ExtendedAttribute|apply IH].
    + pe. revert l. fix IH 1. intros [|a l]; constructor; [apply P_UnionMemberType|apply IH].
  - intros [|t] bad; cbn [show_ReturnType]; pe. apply P_Type.
  - intros [a t] bad. cbn [show_AttributedType]. destruct a as [l|]; pe; [|apply P_Type|apply P_Type].
    revert l. fix IH 1. intros [|a l]; constructor; [apply P_ExtendedAttribute|apply IH].
  - intros [[x l]|[x y l]|[x l]|[x y]|[x]|x]; cbn [show_ExtendedAttribute]; pe.
    + revert l. fix IH 1. intros [|a l]; constructor; [apply P_Argument|apply IH].
    + revert l. fix IH 1. intros [|a l]; constructor; [apply P_Argument|apply IH].
    + apply Pnames.
    + apply Pidstr.
  - intros [[at_ o t x d]|[at_ t x]]; cbn [show_Argument].
    + pe; [destruct at_ as [l|]; pe|apply P_AttributedType|apply Pdefault].
      revert l. fix IH 1. intros [|a l]; constructor; [apply P_ExtendedAttribute|apply IH].
    + pe; [destruct at_ as [l|]; pe|apply P_Type].
      revert l. fix IH 1. intros [|a l]; constructor; [apply P_ExtendedAttribute|apply IH].
Qed.
Lemma P_ConstType t : Runs (show_ConstType t).
Proof. destruct t; cbn [show_ConstType]; pp. Qed.
Lemma P_ConstValue v : Runs (show_ConstValue v).
Proof. destruct v as [[]|[]| |]; cbn [show_ConstValue show_bool show_FloatLit]; pe. Qed.
Lemma P_attributes a : Runs (show_attributes a).
Proof. destruct a as [l|]; cbn [show_attributes]; pe. induction l; constructor; auto using P_ExtendedAttribute. Qed.
Lemma P_args l : Runs (show_args l).
Proof. unfold show_args; pe. induction l; constructor; auto using P_Argument. Qed.
Lemma P_opt_args l : Runs (show_opt_args l).
Proof. destruct l; cbn [show_opt_args]; auto using P_args, Pnil. Qed.
Lemma P_SIS m : Runs (show_SIS m). Proof. destruct m as [[]|]; cbn [show_SIS]; pe. Qed.
Lemma P_SS m : Runs (show_SS m). Proof. destruct m as [[]|]; cbn [show_SS]; pe. Qed.
Lemma P_Special m : Runs (show_Special m). Proof. destruct m as [[]|]; cbn [show_Special]; pe. Qed.
Lemma P_opt_name b n : Runs (show_opt_name b n).
Proof. destruct n; cbn [show_opt_name]; unfold name_after; pe. Qed.
Lemma P_one g : Runs (show_one g). Proof. unfold show_one; pe. apply P_AttributedType. Qed.
Lemma P_pair g : Runs (show_pair g). Proof. unfold show_pair; pe; apply P_AttributedType. Qed.
Lemma P_inheritance h : Runs (show_inheritance h). Proof. destruct h as [[]|]; cbn [show_inheritance]; pe. Qed.


(** A run closed by a semicolon. *)
Definition Line (ts : list tok) : Prop := exists us, ts = us ++ [TPunct ";"] /\ Run us.
Definition Lines (g : list gtok) : Prop := exists h, g = h ++ [GP ";"] /\ Runs h.
Lemma Line_one : Lines [GP ";"]. Proof. exists []. split; [reflexivity|apply Pnil]. Qed.
Lemma Line_app g h : Runs g -> Lines h -> Lines (g ++ h).
Proof. intros H (k & -> & Hk). exists (g ++ k). split; [apply app_assoc|apply Papp; auto]. Qed.
Lemma Line_cons x h : plain x = true -> Lines h -> Lines (x :: h).
Proof. intros. apply (Line_app [x]); auto. apply Pcons; [assumption|apply Pnil]. Qed.
Ltac ln := repeat first [apply Line_one |
  apply Line_app; [first [apply P_attributes|apply P_args|apply P_opt_args|apply P_ConstType|apply P_ConstValue|apply P_SIS|apply P_SS|apply P_Special
    |apply P_opt_name|apply P_one|apply P_pair|apply P_inheritance|apply P_AttributedType|apply P_ReturnType|apply P_Type|apply Pdefault
    |apply Popt_kw]|] | apply Line_cons; [reflexivity|]].

Lemma L_ConstMember m : Lines (show_ConstMember m).
Proof. destruct m. cbn [show_ConstMember]. ln. Qed.
Lemma L_StringifierMember m : Lines (show_StringifierMember m).
Proof. destruct m. cbn [show_StringifierMember]. ln. Qed.
Lemma L_InterfaceMember m : Lines (show_InterfaceMember m).
Proof.
  destruct m as [x|[]|[]|[]|[[]|[]]|[[]|[]]|[]|[]|x]; cbn [show_InterfaceMember show_AttributeInterfaceMember
    show_ConstructorInterfaceMember show_OperationInterfaceMember show_IterableInterfaceMember
    show_AsyncIterableInterfaceMember show_MaplikeInterfaceMember show_SetlikeInterfaceMember]; ln.
  - apply L_ConstMember.
  - apply L_StringifierMember.
Qed.
Lemma L_MixinMember m : Lines (show_MixinMember m).
Proof.
  destruct m as [x|[]|[]|x]; cbn [show_MixinMember]; ln; auto using L_ConstMember, L_StringifierMember.
Qed.
Lemma L_NamespaceMember m : Lines (show_NamespaceMember m).
Proof. destruct m as [[]|[]|[]]; cbn [show_NamespaceMember]; ln. Qed.
Lemma L_DictionaryMember m : Lines (show_DictionaryMember m).
Proof. destruct m; cbn [show_DictionaryMember]; ln. Qed.

(** ** The outline of a definition *)
(** How many members a definition has in braces (src/lib.rs:116-241). *)
Definition members (d : Definition_) : option nat :=
  match d with
  | Definition_CallbackInterface (mkCallbackInterfaceDefinition _ _ _ m) | Definition_Interface (mkInterfaceDefinition _ _ _ m)
  | Definition_PartialInterface (mkPartialInterfaceDefinition _ _ m) => Some (length m)
  | Definition_InterfaceMixin (mkInterfaceMixinDefinition _ _ m) | Definition_PartialInterfaceMixin (mkPartialInterfaceMixinDefinition _ _ m) => Some (length m)
  | Definition_Namespace (mkNamespaceDefinition _ _ m) | Definition_PartialNamespace (mkPartialNamespaceDefinition _ _ m) => Some (length m)
  | Definition_Dictionary (mkDictionaryDefinition _ _ _ m) | Definition_PartialDictionary (mkPartialDictionaryDefinition _ _ m) => Some (length m)
  | _ => None
  end.
(** The values of an enumeration: strings and commas (src/lib.rs:209-216). *)
Definition value_tok (t : tok) : Prop := t = TPunct "," \/ exists s, t = TStr s.
Definition Outline (d : Definition_) (us : list tok) : Prop :=
  match members d with
  | Some n => exists a ls, us = a ++ TPunct "{" :: concat ls ++ [TPunct "}"; TPunct ";"] /\ Run a /\ Forall Line ls /\ length ls = n
  | None =>
      match d with
      | Definition_Enum _ => exists a b, us = a ++ TPunct "{" :: b ++ [TPunct "}"; TPunct ";"] /\ Run a /\ Forall value_tok b
      | _ => Line us
      end
  end.
Lemma values_toks (v : list StringLit) : forall i r, Conc (join (GP ",") (map (fun s => [GStr s]) v)) i r -> exists us, i = us ++ r /\ Forall value_tok us.
Proof.
  induction v as [|x v IH]; intros i r H; [inversion H; subst; exists []; auto|]. destruct v as [|y v].
  - cbn in H. inversion H as [| | | | | | | | | | | |s g i' r' K]; subst. inversion K; subst. exists [TStr x]. split; auto. constructor; [right; eauto|constructor].
  - change (Conc (GStr x :: GP "," :: join (GP ",") (map (fun s => [GStr s]) (y :: v))) i r) in H.
    inversion H as [| | | | | | | | | | | |s g i' r' K]; subst. inversion K as [| |s g' i2 r' H3| | | | | | | | | |]; subst. apply IH in H3 as (us & -> & Hu).
    exists (TStr x :: TPunct "," :: us). split; auto. constructor; [right; eauto|]. constructor; [left; reflexivity|auto].
Qed.

(** ** Definitions *)
(** A run, then members in braces. *)
Definition Bodied (n : nat) (g : list gtok) : Prop := exists h ls, g = h ++ GP "{" :: concat ls ++ [GP "}"; GP ";"] /\ Runs h /\ Forall Lines ls /\ length ls = n.
Lemma Bodied_show {A} (f : A -> list gtok) l : (forall x, Lines (f x)) -> Bodied (length l) (show_body f l ++ [GP ";"]).
Proof.
  intros H. exists [], (map f l). unfold show_body. cbn [app]. rewrite flat_map_concat_map, <- app_assoc. split; [reflexivity|]. split; [apply Pnil|].
  split; [apply Forall_forall; intros x Hx; apply in_map_iff in Hx as (y & <- & _); auto|apply map_length].
Qed.
Lemma Bodied_app n g h : Runs g -> Bodied n h -> Bodied n (g ++ h).
Proof. intros Hg (k & ls & -> & Hk & H). exists (g ++ k), ls. split; [apply app_assoc|]. split; auto. apply Papp; auto. Qed.
Lemma Bodied_cons n x h : plain x = true -> Bodied n h -> Bodied n (x :: h).
Proof. intros. apply (Bodied_app _ [x]); auto. apply Pcons; [assumption|apply Pnil]. Qed.
Lemma Bodied_Definition d : match members d with Some n => Bodied n (show_Definition d) | None => True end.
Proof.
  destruct d as [[]|[]|[]|[]|[]|[]|[]|[]|[]|[]|[]|[]|[]|[]]; cbn [members show_Definition]; try exact Logic.I;
    repeat first [apply Bodied_app; [first [apply P_attributes|apply P_inheritance]|] | apply Bodied_show | apply Bodied_cons; [reflexivity|]];
    intros; try apply L_InterfaceMember; try apply L_MixinMember; try apply L_NamespaceMember; try apply L_DictionaryMember.
Qed.
Lemma Lines_Line g i r : Lines g -> Conc g i r -> exists us, i = us ++ r /\ Line us.
Proof.
  intros (h & -> & Hh) H. apply Conc_split in H as (j & H1 & H2). apply Hh in H1 as (us & -> & Hu).
  inversion H2 as [| |s g' i2 r' H3| | | | | | | | | |]; subst. inversion H3; subst. exists (us ++ [TPunct ";"]). split; [rewrite <- app_assoc; reflexivity|]. exists us. auto.
Qed.
Lemma Lines_Forall gs : Forall Lines gs -> forall i r, Conc (concat gs) i r -> exists ls, i = concat ls ++ r /\ Forall Line ls /\ length ls = length gs.
Proof.
  induction 1 as [|g gs Hg Hgs IH]; cbn [concat]; intros i r H; [inversion H; subst; exists []; auto|]. apply Conc_split in H as (j & H1 & H2).
  apply (Lines_Line _ _ _ Hg) in H1 as (us & -> & Hu). apply IH in H2 as (ls & -> & Hl & E). exists (us :: ls). cbn. rewrite <- app_assoc, E. auto.
Qed.
Theorem outline d us : Conc (show_Definition d) us [] -> Outline d us.
Proof.
  intros H. unfold Outline. pose proof (Bodied_Definition d) as B. destruct (members d) as [n|] eqn:Em.
  - destruct B as (h & gs & E & Hh & Hgs & <-). rewrite E in H. apply Conc_split in H as (j & H1 & H2). apply Hh in H1 as (a & -> & Ha).
    inversion H2 as [| |s g' i2 r' H3| | | | | | | | | |]; subst. apply Conc_split in H3 as (k & H3 & H4). apply (Lines_Forall _ Hgs) in H3 as (ls & -> & Hl & El).
    inversion H4 as [| |s g' i3 r' H5| | | | | | | | | |]; subst. inversion H5 as [| |s g' i4 r' H6| | | | | | | | | |]; subst. inversion H6; subst.
    exists a, ls. auto.
  - clear B. destruct d as [x|x|x|x|x|x|x|x|x|x|x|x|x|x]; try (destruct x; discriminate Em).
    2: { destruct x as [a i v]. cbn [show_Definition] in H.
      match type of H with Conc ?g _ _ => assert (E : g = (show_attributes a ++ [GKw "enum"; GId [] i]) ++ GP "{" :: join (GP ",") (map (fun s => [GStr s]) v) ++ [GOptComma; GP "}"; GP ";"]) by (rewrite <- app_assoc; reflexivity); rewrite E in H; clear E end.
      apply Conc_split in H as (j & H1 & H2).
      assert (Ha : Runs (show_attributes a ++ [GKw "enum"; GId [] i])) by (apply Papp; [apply P_attributes|pe]). apply Ha in H1 as (b & -> & Hb).
      inversion H2 as [| |s g' i2 r' H3| | | | | | | | | |]; subst. apply Conc_split in H3 as (k & H3 & H4).
      apply values_toks in H3 as (vs & -> & Hv).
      assert (K : exists ws, k = ws ++ [TPunct "}"; TPunct ";"] /\ Forall value_tok ws).
      { inversion H4 as [| | | | | | |g i' r' K|g i' r' K| | | |]; subst; inversion K as [| |s g' i3 r' H5| | | | | | | | | |]; subst;
          inversion H5 as [| |s g' i4 r' H6| | | | | | | | | |]; subst; inversion H6; subst; [exists [TPunct ","]|exists []]; split; auto. constructor; [left; reflexivity|constructor]. }
      destruct K as (ws & -> & Hw). exists b, (vs ++ ws). split; [rewrite <- app_assoc; reflexivity|]. split; auto. apply Forall_app. auto. }
    all: assert (L : Lines (show_Definition _)) by (match type of H with Conc (show_Definition ?d) _ _ => instantiate (1 := d) end; destruct x; cbn [show_Definition]; ln);
      apply (Lines_Line _ _ _ L) in H as (vs & E & Hv); rewrite app_nil_r in E; subst; exact Hv.
Qed.

(** ** What follows *)
(** What is asked of every semicolon and every opening brace, with the brackets that are open there. *)
Definition placed (st : list string) (t : tok) (rest : list tok) : Prop :=
  (t = TPunct ";" -> st = [] \/ st = ["{"%string]) /\ (t = TPunct "{" -> st = [] \/ exists r, rest = TPunct "}" :: r).
Fixpoint Placed (st : list string) (ts : list tok) : Prop :=
  match ts with
  | [] => True
  | t :: ts' => placed st t ts' /\ match push st t with Some st' => Placed st' ts' | None => False end
  end.
Lemma placed_plain st t r : ~ bracket t -> t <> TPunct ";" -> placed st t r.
Proof. intros H H'. split; intros ->; [congruence|]. exfalso. apply H. exists "{"%string, "}"%string. split; [constructor|auto]. Qed.
Lemma placed_more st t r x : placed st t r -> placed st t (r ++ x).
Proof. intros [H1 H2]. split; auto. intros E. destruct (H2 E) as [K|[y ->]]; auto. right. exists (y ++ x). reflexivity. Qed.
Lemma Placed_app st ts us st' : opened st ts = Some st' -> Placed st ts -> Placed st' us -> Placed st (ts ++ us).
Proof.
  revert st. induction ts as [|t ts IH]; cbn; intros st E H K; [injection E as ->; exact K|]. destruct H as [H1 H2]. split; [apply placed_more; auto|].
  destruct (push st t); [|exact H2]. auto.
Qed.
Lemma Run_Placed ts : Run ts -> forall st, Placed st ts.
Proof.
  induction 1 as [|t ts Hb Hs H IH|o c ts us Hp Hc H1 IH1 H2 IH2]; intros st; cbn [Placed]; auto.
  - split; [apply placed_plain; auto|]. rewrite (push_plain _ _ Hb). auto.
  - rewrite (push_open _ _ _ Hp). split.
    + split; [intros [= ->]; inversion Hp|]. intros [= E]. rewrite (Hc E). right. subst. inversion Hp; subst. eexists. reflexivity.
    + apply (Placed_app _ _ _ (o :: st)); auto; [apply Balanced_opened, Run_Balanced; auto|]. cbn [Placed]. rewrite (push_close _ _ _ Hp).
      split; auto. split; intros [= ->]; inversion Hp.
Qed.
Lemma Line_Balanced ts : Line ts -> Balanced ts.
Proof.
  intros (us & -> & H). apply Balanced_app; [apply Run_Balanced; auto|]. apply Bal_tok; [|apply Bal_nil].
  intros (o & c & Hp & [[= E]|[= E]]); subst; inversion Hp.
Qed.
Lemma Line_Placed ts st : Line ts -> st = [] \/ st = ["{"%string] -> Placed st ts.
Proof.
  intros (us & -> & H) Hs. apply (Placed_app _ _ _ st); [apply Balanced_opened, Run_Balanced; auto|apply Run_Placed; auto|]. cbn. split; auto. split; auto. discriminate.
Qed.
Lemma concat_Balanced ls : Forall Balanced ls -> Balanced (concat ls).
Proof. induction 1; cbn; [constructor|]. apply Balanced_app; auto. Qed.
Lemma concat_Placed st ls : Forall (fun l => Balanced l /\ Placed st l) ls -> Placed st (concat ls).
Proof. induction 1 as [|l ls [H1 H2] H IH]; cbn; auto. apply (Placed_app _ _ _ st); auto. apply Balanced_opened; auto. Qed.
Lemma value_plain t : value_tok t -> ~ bracket t /\ t <> TPunct ";".
Proof. intros [->|[s ->]]; [apply plain_tok; reflexivity|apply name_tok; exact Logic.I]. Qed.
Lemma values_Run b : Forall value_tok b -> Run b.
Proof. induction 1 as [|t b Ht Hb IH]; [constructor|]. apply value_plain in Ht as [H1 H2]. apply Run_tok; auto. Qed.
(** A body in braces. *)
Lemma body_ok a b : Run a -> Balanced b -> Placed ["{"%string] b ->
  Balanced (a ++ TPunct "{" :: b ++ [TPunct "}"; TPunct ";"]) /\ Placed [] (a ++ TPunct "{" :: b ++ [TPunct "}"; TPunct ";"]).
Proof.
  intros Ha Hb Hp. split.
  - apply Balanced_app; [apply Run_Balanced; auto|]. apply Bal_group; [constructor|auto|]. apply (Line_Balanced [TPunct ";"]). exists []. split; [reflexivity|constructor].
  - apply (Placed_app _ _ _ []); [apply Balanced_opened, Run_Balanced; auto|apply Run_Placed; auto|]. cbn [Placed]. split; [split; [discriminate|auto]|].
    cbn [push closer String.eqb Ascii.eqb Bool.eqb]. apply (Placed_app _ _ _ ["{"%string]); [apply Balanced_opened; auto|auto|]. cbn. repeat split; auto; discriminate.
Qed.
Lemma Outline_ok d us : Outline d us -> Balanced us /\ Placed [] us.
Proof.
  unfold Outline. destruct (members d) as [n|].
  - intros (a & ls & -> & Ha & Hl & _). apply body_ok; auto.
    + apply concat_Balanced. eapply Forall_impl; [|exact Hl]. apply Line_Balanced.
    + apply concat_Placed. eapply Forall_impl; [|exact Hl]. intros l K. split; [apply Line_Balanced; auto|apply Line_Placed; auto].
  - assert (L : Line us -> Balanced us /\ Placed [] us) by (intros K; split; [apply Line_Balanced; auto|apply Line_Placed; auto]).
    destruct d; auto. intros (a & b & -> & Ha & Hb). apply values_Run in Hb. apply body_ok; auto; [apply Run_Balanced; auto|apply Run_Placed; auto].
Qed.
Lemma Sentence_outline defs ts : Conc (show_Definitions defs) ts [] -> exists tss, ts = concat tss /\ Forall2 Outline defs tss.
Proof.
  intros H. destruct (Definitions_split _ _ H) as (tss & -> & K). exists tss. split; auto. clear H. induction K; constructor; auto. apply outline; auto.
Qed.
Lemma Sentence_ok defs ts : Conc (show_Definitions defs) ts [] -> Balanced ts /\ Placed [] ts.
Proof.
  intros H. apply Sentence_outline in H as (tss & -> & H).
  assert (K : Forall (fun l => Balanced l /\ Placed [] l) tss) by (clear - H; induction H; constructor; auto; eapply Outline_ok; eauto).
  split; [apply concat_Balanced; eapply Forall_impl; [|exact K]; intros ? [? ?]; assumption|apply concat_Placed; auto].
Qed.
Lemma Placed_at ts : forall st a t b, Placed st ts -> ts = a ++ t :: b -> exists st', opened st a = Some st' /\ placed st' t b.
Proof.
  induction ts as [|x ts IH]; intros st [|y a] t b H E; try discriminate E; injection E as -> ->; cbn in H |- *.
  - exists st. tauto.
  - destruct H as [_ H]. destruct (push st y); [eauto|contradiction].
Qed.

Theorem parse_outline raw defs ts : parse raw = Parsed defs -> Toks raw ts -> exists tss, ts = concat tss /\ Forall2 Outline defs tss.
Proof. intros H HT. apply parse_sound in H as (ts' & HT' & HS & _). rewrite (Toks_unique _ _ _ HT HT'). apply Sentence_outline; auto. Qed.
Theorem parse_balanced raw defs ts : parse raw = Parsed defs -> Toks raw ts -> Balanced ts.
Proof. intros H HT. apply parse_sound in H as (ts' & HT' & HS & _). rewrite (Toks_unique _ _ _ HT HT'). apply (Sentence_ok defs); auto. Qed.
Theorem definitions_balanced s rest defs : parse_as e_Definitions s = Ok rest defs -> exists ts, Ats ts s rest /\ Balanced ts.
Proof. intros H. apply Definitions_exact in H as [(ts & HA & HC & _) _]. exists ts. split; auto. apply (Sentence_ok defs); auto. Qed.
Theorem semicolons raw defs ts a b : parse raw = Parsed defs -> Toks raw ts -> ts = a ++ TPunct ";" :: b ->
  opened [] a = Some [] \/ opened [] a = Some ["{"%string].
Proof.
  intros H HT E. apply parse_sound in H as (ts' & HT' & HS & _). rewrite (Toks_unique _ _ _ HT HT') in E.
  destruct (Placed_at _ _ _ _ _ (proj2 (Sentence_ok _ _ HS)) E) as (st & -> & [K _]). destruct (K eq_refl); subst; auto.
Qed.
Theorem braces raw defs ts a b : parse raw = Parsed defs -> Toks raw ts -> ts = a ++ TPunct "{" :: b ->
  opened [] a = Some [] \/ exists r, b = TPunct "}" :: r.
Proof.
  intros H HT E. apply parse_sound in H as (ts' & HT' & HS & _). rewrite (Toks_unique _ _ _ HT HT') in E.
  destruct (Placed_at _ _ _ _ _ (proj2 (Sentence_ok _ _ HS)) E) as (st & -> & [_ K]). destruct (K eq_refl); subst; auto.
Qed.

(** ** Counting *)
Definition semi (t : tok) : bool := match t with TPunct s => String.eqb s ";" | _ => false end.
Definition semis (ts : list tok) : nat := length (filter semi ts).
Lemma semis_app ts us : semis (ts ++ us) = semis ts + semis us.
Proof. unfold semis. rewrite filter_app, app_length. reflexivity. Qed.
Lemma semi_iff t : semi t = true <-> t = TPunct ";".
Proof. destruct t as [|s| | | |]; cbn; try (split; discriminate). rewrite String.eqb_eq. split; [intros ->; reflexivity|intros [= ->]; reflexivity]. Qed.
Lemma semis_Run ts : Run ts -> semis ts = 0.
Proof.
  induction 1 as [|t ts Hb Hs H IH|o c ts us Hp Hc H1 IH1 H2 IH2]; auto.
  - unfold semis in *. cbn. destruct (semi t) eqn:E; auto. apply semi_iff in E. contradiction.
  - change (TPunct o :: ts ++ TPunct c :: us) with ([TPunct o] ++ ts ++ [TPunct c] ++ us). rewrite !semis_app, IH1, IH2. destruct Hp; reflexivity.
Qed.
Lemma semis_Line ts : Line ts -> semis ts = 1.
Proof. intros (us & -> & H). rewrite semis_app, (semis_Run _ H). reflexivity. Qed.
Lemma semis_Outline d us : Outline d us -> semis us = S match members d with Some n => n | None => 0 end.
Proof.
  unfold Outline. destruct (members d) as [n|].
  - intros (a & ls & -> & Ha & Hl & <-). change (TPunct "{" :: concat ls ++ [TPunct "}"; TPunct ";"]) with ([TPunct "{"] ++ concat ls ++ [TPunct "}"; TPunct ";"]).
    rewrite !semis_app, (semis_Run _ Ha). cbn [semis filter length semi String.eqb]. replace (semis (concat ls)) with (length ls); [cbn; lia|].
    clear - Hl. induction Hl as [|l ls Hl Hls IH]; [reflexivity|]. cbn [concat length]. rewrite semis_app, (semis_Line _ Hl), IH. reflexivity.
  - destruct d; try apply semis_Line. intros (a & b & -> & Ha & Hb). apply values_Run, semis_Run in Hb.
    change (TPunct "{" :: b ++ [TPunct "}"; TPunct ";"]) with ([TPunct "{"] ++ b ++ [TPunct "}"; TPunct ";"]). rewrite !semis_app, (semis_Run _ Ha), Hb. reflexivity.
Qed.
Theorem count_semicolons raw defs ts : parse raw = Parsed defs -> Toks raw ts ->
  length (filter semi ts) = length defs + list_sum (map (fun d => match members d with Some n => n | None => 0 end) defs).
Proof.
  intros H HT. destruct (parse_outline _ _ _ H HT) as (tss & -> & K). clear - K. change (semis (concat tss) = length defs + list_sum (map (fun d => match members d with Some n => n | None => 0 end) defs)).
  induction K as [|d us l tss Hd Hl IH]; auto. cbn [concat map length]. rewrite semis_app, (semis_Outline _ _ Hd), IH. unfold list_sum. cbn [fold_right length]. lia.
Qed.
