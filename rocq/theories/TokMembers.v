(** * Completeness on tokens: members and definitions *)
From Coq Require Import String Ascii NArith Arith Bool List Lia.
From Verif Require Import Nom Lex Ast Grammar Spec LexFacts NumFacts TokFacts RunFacts Shapes TermFacts Api ApiFacts LexProps Tok TokRun TokSound TokComplete.
Import ListNotations.
Open Scope list_scope.

(** ** Types, arguments and attributes contain no semicolon *)
Definition NS (g : list gtok) : Prop := Forall (fun x => x <> GP ";") g.
Lemma NS_app g1 g2 : NS g1 -> NS g2 -> NS (g1 ++ g2).
Proof. intros. apply Forall_app. auto. Qed.
Lemma NS_cons x g : x <> GP ";" -> NS g -> NS (x :: g).
Proof. intros. constructor; auto. Qed.
Lemma NS_nil : NS []. Proof. constructor. Qed.
Lemma NS_join sep l : sep <> GP ";" -> Forall NS l -> NS (join sep l).
Proof.
  intros Hs H. induction H as [|x l Hx Hl IH]; [constructor|]. destruct l as [|y l]; auto.
  change (NS (x ++ sep :: join sep (y :: l))). apply NS_app; auto. constructor; auto.
Qed.
Lemma NS_q q : NS (opt_q q). Proof. destruct q; repeat constructor; discriminate. Qed.
Lemma NS_kw o s : NS (opt_kw o s). Proof. destruct o; repeat constructor; discriminate. Qed.
Lemma NS_int t : NS (show_IntegerType t).
Proof. destruct t as [[[[]|]]|[[[]|]]|[[[]|]]]; repeat constructor; discriminate. Qed.
Lemma NS_float t : NS (show_FloatingPointType t).
Proof. destruct t as [[[[]|]]|[[[]|]]]; repeat constructor; discriminate. Qed.
Lemma NS_null (T : Set) (f : T -> list gtok) m : (forall t, NS (f t)) -> NS (show_null f m).
Proof. intros H. destruct m. apply NS_app; auto using NS_q. Qed.
Lemma NS_kw_null s m : NS (show_kw_null s m).
Proof. apply NS_null. intros. apply NS_cons; [discriminate|apply NS_nil]. Qed.
Lemma NS_default d : NS (show_default d).
Proof. destruct d as [[[]| | |[]| | |]|]; repeat constructor; discriminate. Qed.
Lemma NS_idstr x : NS (show_IdentifierOrString x).
Proof. destruct x; repeat constructor; discriminate. Qed.
Lemma NS_names l : Forall NS (map (fun n : Identifier => [GId [] n]) l).
Proof. induction l; constructor; auto. apply NS_cons; [discriminate|apply NS_nil]. Qed.

Ltac ns := repeat first [assumption | apply NS_app | apply NS_cons; [discriminate|] | apply NS_nil | apply NS_q | apply NS_kw |
  apply NS_join; [discriminate|] | apply NS_kw_null | apply NS_default | apply NS_idstr | apply NS_names |
  apply NS_null; first [apply NS_int|apply NS_float]].

Lemma ns_Type : forall t bad, NS (show_Type bad t)
with ns_SingleType : forall t bad, NS (show_SingleType bad t)
with ns_NonAnyType : forall t bad, NS (show_NonAnyType bad t)
with ns_SequenceType : forall t, NS (show_SequenceType t)
with ns_FrozenArrayType : forall t, NS (show_FrozenArrayType t)
with ns_PromiseType : forall t, NS (show_PromiseType t)
with ns_RecordType : forall t, NS (show_RecordType t)
with ns_RecordKeyType : forall t, NS (show_RecordKeyType t)
with ns_UnionMemberType : forall t, NS (show_UnionMemberType t)
with ns_ReturnType : forall t bad, NS (show_ReturnType bad t)
with ns_AttributedType : forall t bad, NS (show_AttributedType bad t)
with ns_ExtendedAttribute : forall t, NS (show_ExtendedAttribute t)
with ns_Argument : forall t, NS (show_Argument t).
Proof.
  - intros [t|[l q]] bad; cbn [show_Type].
    + apply ns_SingleType.
    + ns. revert l. fix IH 1. intros [|a l]; constructor; [apply ns_UnionMemberType|apply IH].
  - intros [|t] bad; cbn [show_SingleType]; [ns|]. apply ns_NonAnyType.
  - intros t bad. destruct t as [p|m|m|m|m|m|m|m|m|m|m|m|m|m|m|m|m|m|m|m|m|m|m|m|m|m|m|m|m]; cbn [show_NonAnyType]; try (solve [ns]).
    + apply ns_PromiseType.
    + destruct m as [t q]. ns. apply ns_SequenceType.
    + destruct m as [t q]. ns. apply ns_FrozenArrayType.
    + destruct m as [t q]. ns. apply ns_RecordType.
    + destruct m as [t q]. cbn [show_null]. ns.
  - intros [t]. cbn [show_SequenceType]. ns. apply ns_Type.
  - intros [t]. cbn [show_FrozenArrayType]. ns. apply ns_Type.
  - intros [t]. cbn [show_PromiseType]. ns. apply ns_ReturnType.
  - intros [k t]. cbn [show_RecordType]. ns; [apply ns_RecordKeyType|apply ns_Type].
  - intros [| | |t]; cbn [show_RecordKeyType]; ns. apply ns_NonAnyType.
  - intros [[a t]|[l q]]; cbn [show_UnionMemberType].
    + ns; [destruct a as [l|]; ns|apply ns_NonAnyType].
      revert l. fix IH 1. intros [|a l]; constructor; [apply ns_ExtendedAttribute|apply IH].
    + ns. revert l. fix IH 1. intros [|a l]; constructor; [apply ns_UnionMemberType|apply IH].
  - intros [|t] bad; cbn [show_ReturnType]; ns. apply ns_Type.
  - intros [a t] bad. cbn [show_AttributedType]. destruct a as [l|]; ns; [|apply ns_Type|apply ns_Type].
    revert l. fix IH 1. intros [|a l]; constructor; [apply ns_ExtendedAttribute|apply IH].
  - intros [[x l]|[x y l]|[x l]|[x y]|[x]|x]; cbn [show_ExtendedAttribute]; ns.
    + revert l. fix IH 1. intros [|a l]; constructor; [apply ns_Argument|apply IH].
    + revert l. fix IH 1. intros [|a l]; constructor; [apply ns_Argument|apply IH].
  - intros [[at_ o t x d]|[at_ t x]]; cbn [show_Argument].
    + ns; [destruct at_ as [l|]; ns|apply ns_AttributedType].
      revert l. fix IH 1. intros [|a l]; constructor; [apply ns_ExtendedAttribute|apply IH].
    + ns; [destruct at_ as [l|]; ns|apply ns_Type].
      revert l. fix IH 1. intros [|a l]; constructor; [apply ns_ExtendedAttribute|apply IH].
Qed.
Lemma ns_ConstType t : NS (show_ConstType t).
Proof. destruct t as [m|m|m|m|m|m]; cbn [show_ConstType]; ns. destruct m. cbn [show_null]. ns. Qed.
Lemma ns_SS m : NS (show_SS m). Proof. destruct m as [[]|]; cbn; ns. Qed.
Lemma ns_SIS m : NS (show_SIS m). Proof. destruct m as [[]|]; cbn; ns. Qed.
Lemma ns_Special m : NS (show_Special m). Proof. destruct m as [[]|]; cbn; ns. Qed.
Lemma ns_opt_name b n : NS (show_opt_name b n). Proof. destruct n; cbn; unfold name_after; ns. Qed.
Lemma ns_arglist l : NS (join (GP ",") (map show_Argument l)).
Proof. apply NS_join; [discriminate|]. induction l; constructor; auto using ns_Argument. Qed.

(** The token before the first semicolon. *)
Definition Before (i : list tok) (y : tok) : Prop :=
  exists x r, i = x ++ y :: TPunct ";" :: r /\ ~ In (TPunct ";") (x ++ [y]).
Lemma first_semi (x x' r r' : list tok) : x ++ TPunct ";" :: r = x' ++ TPunct ";" :: r' -> ~ In (TPunct ";") x -> ~ In (TPunct ";") x' -> x = x'.
Proof.
  revert x'. induction x as [|a x IH]; intros [|b x'] E H H'; auto.
  - injection E as <- _. destruct H'. left. auto.
  - injection E as -> _. destruct H. left. auto.
  - injection E as -> E. f_equal. apply IH; auto; intros K; [apply H|apply H']; right; auto.
Qed.
Lemma Before_det i y y' : Before i y -> Before i y' -> y = y'.
Proof.
  intros (x & r & -> & H) (x' & r' & E & H').
  assert (E2 : (x ++ [y]) ++ TPunct ";" :: r = (x' ++ [y']) ++ TPunct ";" :: r') by (rewrite <- !app_assoc; exact E).
  apply first_semi in E2; auto. apply app_inj_tail in E2. tauto.
Qed.
Lemma Conc_NS g i r : Conc g i r -> NS g -> exists x, i = x ++ r /\ ~ In (TPunct ";") x.
Proof.
  unfold NS. induction 1; intros HN; [exists []; split; auto|..]; inversion HN; subst; destruct IHConc as (x & -> & Hx); auto;
    try (eexists (_ :: x); split; [reflexivity|]; intros [E|E]; [inversion E; subst; congruence|auto]).
  exists x. auto.
Qed.
Lemma Before_intro g i y r : Conc g i (y :: TPunct ";" :: r) -> NS g -> y <> TPunct ";" -> Before i y.
Proof.
  intros H HN Hy. apply Conc_NS in H as (x & -> & Hx); auto. exists x, r. split; auto.
  rewrite in_app_iff. intros [K|[K|[]]]; auto.
Qed.

(** ** Pieces *)
Lemma Ev_const v r : Ev (PTerm TmConstValue) (const_toks v ++ r) (Some (v, r)).
Proof. apply Ev_term. cbn [tok_sem]. rewrite const_of_toks. auto. Qed.
Lemma Conc_const_inv v g i r : Conc (show_ConstValue v ++ g) i r -> exists j, i = const_toks v ++ j /\ Conc g j r.
Proof. destruct v as [[]|[]| |]; cbn; intros H; inversion H; subst; eauto. Qed.
Lemma const_tok v : exists y, const_toks v = [y] /\ y <> TPunct ")" /\ y <> TPunct ";".
Proof. destruct v as [[]|[]| |]; eexists; (split; [reflexivity|split; discriminate]). Qed.
Lemma Cf_one i r g : Conc (show_one g) i r -> wf_AttributedType g -> Ev (e_Generics e_AttributedType) i (Some (g, r)).
Proof.
  unfold show_one. intros H Hw. norm_in H. cinv1 H. apply Conc_split in H as (k & H1 & H). cinv H.
  eapply Ev_bind; [apply (Ev_T LessThan)|]. eapply Ev_bind; [|eapply Ev_bind; [apply (Ev_T GreaterThan)|apply Ev_ret]].
  eapply Cf_AttributedType; eauto; [apply tfol_p; discriminate|intros _ r'; discriminate].
Qed.
Lemma Cf_pair i r g : Conc (show_pair g) i r -> wf_pair g ->
  Ev (e_Generics (e_triple e_AttributedType Comma e_AttributedType)) i (Some (g, r)) /\
  Ev (e_Generics e_AttributedType) i None.
Proof.
  destruct g as [g1 g2]. unfold show_pair, wf_pair. cbn [fst snd]. intros H [Hw1 Hw2]. norm_in H. cinv1 H.
  apply Conc_split in H as (k & H1 & H). cinv1 H. apply Conc_split in H as (l & H2 & H). cinv H.
  assert (E1 : Ev e_AttributedType j (Some (g1, TPunct "," :: j0))).
  { eapply Cf_AttributedType; eauto; [apply tfol_p; discriminate|intros _ r'; discriminate]. }
  assert (E2 : Ev e_AttributedType j0 (Some (g2, TPunct ">" :: r))).
  { eapply Cf_AttributedType; eauto; [apply tfol_p; discriminate|intros _ r'; discriminate]. }
  split.
  - eapply Ev_bind; [apply (Ev_T LessThan)|]. eapply Ev_bind; [|eapply Ev_bind; [apply (Ev_T GreaterThan)|apply Ev_ret]].
    eapply Ev_bind; [exact E1|]. eapply Ev_bind; [apply (Ev_T Comma)|]. eapply Ev_bind; [exact E2|]. apply Ev_ret.
  - eapply Ev_bind; [apply (Ev_T LessThan)|]. eapply Ev_bind; [exact E1|]. erej.
Qed.
Lemma Cf_opt_args i r o : Conc (show_opt_args o ++ [GP ";"]) i r -> wf_opt_args o ->
  Ev (e_Option (e_Parenthesized e_ArgumentList)) i (Some (o, TPunct ";" :: r)).
Proof.
  intros H Hw. apply Conc_split in H as (k & H1 & H). cinv H. destruct o as [l|].
  - apply Ev_opt_Some. apply Cf_args; auto.
  - apply Conc_nil_inv in H1. subst. apply Ev_opt_None. erej.
Qed.
Lemma Cf_inheritance h g i r : Conc (show_inheritance h ++ GP "{" :: g) i r ->
  exists j, Ev (e_Option e_Inheritance) i (Some (h, TPunct "{" :: j)) /\ Conc g j r.
Proof.
  destruct h as [[x]|]; cbn [show_inheritance app]; intros H; cinv H.
  - exists j. split; auto. apply Ev_opt_Some. apply (Ev_accept 0). reflexivity.
  - exists j. split; auto. apply Ev_opt_None. erej.
Qed.
Lemma Cf_body A (q : pexp A) al (f : A -> list gtok) (w : A -> Prop) l g i r : Shape al q true ->
  (forall a i r, Conc (f a) i r -> w a -> Ev q i (Some (a, r))) -> (forall r, Ev q (TPunct "}" :: r) None) ->
  Conc (show_body f l ++ g) i r -> All w l -> exists j, Ev (e_Braced (e_Vec q)) i (Some (l, j)) /\ Conc g j r.
Proof.
  intros HS Hq Hn H Hw. unfold show_body in H. norm_in H. cinv1 H. apply Conc_split in H as (k & H1 & H). cinv1 H.
  exists j0. split; auto. eapply Ev_bind; [apply (Ev_T OpenBrace)|].
  eapply Ev_bind; [|eapply Ev_bind; [apply (Ev_T CloseBrace)|apply Ev_ret]].
  apply Ev_many. clear H. revert j H1. induction l as [|a l IH]; intros j H1.
  - apply Conc_nil_inv in H1. subst. apply Many_stop. auto.
  - cbn [flat_map] in H1. apply Conc_split in H1 as (k & H1 & H2). destruct Hw as [Hw1 Hw2].
    pose proof (Hq _ _ _ H1 Hw1) as E. eapply Many_more; eauto. eapply Ev_len; eauto.
Qed.

(** After the attributes: a definite decision on the first tokens. *)
Ltac after Ea := eapply Ev_bind; [exact Ea|].
Ltac ano Ea := repeat (apply Ev_or2; [apply Ev_map_no; after Ea; erej|]).
Ltac nobr := let k := fresh in intros _ k; discriminate.

(** What starts with a name or parenthesis does not start with a bracket. *)
Lemma return_tail_nb (bad : list string) t g i r : Conc (show_ReturnType bad t ++ g) i r -> forall k, i <> TPunct "[" :: k.
Proof. intros H. apply Conc_split in H as (j & H & _). eapply return_no_bracket; eauto. Qed.

(** ** Constants *)
Lemma C_ConstMember i r m : Conc (show_ConstMember m) i r ->
  match m with mkConstMember a _ _ _ => wf_attributes a end -> Ev e_ConstMember i (Some (m, r)).
Proof.
  destruct m as [a t x v]. cbn [show_ConstMember]. intros H Hw. norm_in H. apply Conc_split in H as (j & H1 & H).
  cinv1 H. apply Conc_split in H as (k & H2 & H). cinv1 H. cinv1 H. apply Conc_const_inv in H as (l & -> & H). cinv H.
  eapply Ev_bind; [apply Cf_attributes; eauto; nobr|]. eapply Ev_bind; [apply (Ev_T Const)|].
  eapply Ev_bind; [eapply C_ConstType; eauto; apply tfol_name|]. eapply Ev_bind; [apply Ev_ident|].
  eapply Ev_bind; [apply (Ev_T Assign)|]. eapply Ev_bind; [apply Ev_const|]. eapply Ev_bind; [apply (Ev_T SemiColon)|]. apply Ev_ret.
Qed.

(** A run that reads up to a semicolon. *)
Lemma Ev_not A (p : pexp A) al c i : Shape al p c -> (forall n r a, krun n _ p i = Ok r a -> False) -> Ev p i None.
Proof.
  intros HS H. destruct (Ev_total A p al c i HS) as [[[a r]|] Ho]; auto. apply Ev_Some in Ho as [n Ho]. destruct (H n r a Ho).
Qed.

(** ** Alternatives told apart by the token before the first semicolon *)
Lemma attrs_same n i a j a' j' : Ev e_attributes i (Some (a, j)) -> krun n _ e_attributes i = Ok j' a' -> j' = j.
Proof. intros H H'. pose proof (Ev_krun _ _ _ _ H n) as H2. cbn in H2. rewrite H' in H2. specialize (H2 ltac:(discriminate)). congruence. Qed.
Ltac attrs_same Ea := match goal with K : krun _ _ e_attributes _ = Ok _ _ |- _ => pose proof (attrs_same _ _ _ _ _ _ Ea K); subst; clear K end.

Lemma no_Const i a j : Ev e_attributes i (Some (a, j)) -> Before j (TPunct ")") -> Ev e_ConstMember i None.
Proof.
  intros Ea HB. eapply (Ev_not _ _ true true); [auto with shape|]. intros n r m H. unfold e_ConstMember in H. kinv H. subst.
  attrs_same Ea. kname e_ConstType Kt. apply S_ConstType in Kt as [Kt _].
  match goal with K : context [const_toks ?v] |- _ => destruct (const_tok v) as (y & Ey & Hy1 & Hy2) end.
  rewrite Ey in *. cbn [app] in *.
  match goal with Kt : Conc (show_ConstType ?t) ?j (TName ?e ?x :: ?k) |- _ =>
    assert (H : Conc (GKw "const" :: show_ConstType t ++ [GId [] x; GP "="]) (kw "const" :: j) (tl k)) end.
  { constructor. eapply Conc_app; eauto. conc. }
  apply Before_intro in H; auto; [|ns; apply ns_ConstType]. apply (Before_det _ _ _ HB) in H. congruence.
Qed.

Lemma no_ConstNamespace i a j : Ev e_attributes i (Some (a, j)) -> Before j (TPunct ")") -> Ev e_ConstNamespaceMember i None.
Proof.
  intros Ea HB. eapply (Ev_not _ _ true true); [auto with shape|]. intros n r m H. unfold e_ConstNamespaceMember in H. kinv H. subst.
  attrs_same Ea. kname e_ConstType Kt. apply S_ConstType in Kt as [Kt _].
  match goal with K : context [const_toks ?v] |- _ => destruct (const_tok v) as (y & Ey & Hy1 & Hy2) end.
  rewrite Ey in *. cbn [app] in *.
  match goal with Kt : Conc (show_ConstType ?t) ?j (TName ?e ?x :: ?k) |- _ =>
    assert (H : Conc (GKw "const" :: show_ConstType t ++ [GId [] x; GP "="]) (kw "const" :: j) (tl k)) end.
  { constructor. eapply Conc_app; eauto. conc. }
  apply Before_intro in H; auto; [|ns; apply ns_ConstType]. apply (Before_det _ _ _ HB) in H. congruence.
Qed.
Lemma no_Attribute i a j : Ev e_attributes i (Some (a, j)) -> Before j (TPunct ")") -> Ev e_AttributeInterfaceMember i None.
Proof.
  intros Ea HB. eapply (Ev_not _ _ true true); [auto with shape|]. intros n r m H. unfold e_AttributeInterfaceMember in H. kinv H. subst.
  attrs_same Ea. kname e_AttributedType Kt. apply K_AttributedType in Kt as (Kt & _).
  kname (e_Option e_StringifierOrInheritOrStatic) Km. apply K_opt_SIS in Km.
  kname (e_Option (T_ ReadOnly)) Kr. apply (S_opt_kw _ _ _ _ _ "readonly") in Kr as [Kr _]; [|reflexivity].
  match type of Kt with Conc (show_AttributedType [] ?t) _ ?l => match type of Km with Conc (show_SIS ?m) _ _ =>
    match type of Kr with Conc (opt_kw ?o _) _ _ =>
    assert (H : Conc (show_SIS m ++ opt_kw o "readonly" ++ GKw "attribute" :: show_AttributedType [] t) j l) end end end.
  { conc. }
  apply Before_intro in H; [| |discriminate]; [apply (Before_det _ _ _ HB) in H; discriminate|].
  ns; [apply ns_SIS|apply ns_AttributedType].
Qed.
Lemma args_before g l i r : Conc (g ++ show_args l ++ [GP ";"]) i r -> NS g -> Before i (TPunct ")").
Proof.
  intros H Hg. unfold show_args in H.
  assert (E : g ++ (GP "(" :: join (GP ",") (map show_Argument l) ++ [GP ")"]) ++ [GP ";"] =
    (g ++ GP "(" :: join (GP ",") (map show_Argument l)) ++ [GP ")"; GP ";"]) by (norm; reflexivity).
  rewrite E in H. apply Conc_split in H as (j & H1 & H). cinv H. eapply Before_intro; [exact H1| |discriminate].
  apply NS_app; auto. apply NS_cons; [discriminate|]. apply ns_arglist.
Qed.
Lemma no_OperationMixin i a j e x : Ev e_attributes i (Some (a, j)) -> Before j (TName e x) -> Ev e_OperationMixinMember i None.
Proof.
  intros Ea HB. eapply (Ev_not _ _ true true); [auto with shape|]. intros n r m H. unfold e_OperationMixinMember in H. kinv H. subst.
  attrs_same Ea. kname e_ReturnType Kt. apply (K_ReturnType _ []) in Kt as (Kt & _ & Kl); [|apply not_head_nil].
  kname (e_Option (T_ Stringifier)) Km. apply (S_opt_kw _ _ _ _ _ "stringifier") in Km as [Km _]; [|reflexivity].
  kname (e_Option e_Identifier) Kr. apply (K_opt_name _ _ _ _ _ Kr) in Kl.
  kname (e_Parenthesized e_ArgumentList) Ka. apply K_args in Ka as [Ka _].
  match type of Kt with Conc (show_ReturnType [] ?t) _ _ => match type of Km with Conc (opt_kw ?m _) _ _ =>
    match type of Kl with Conc (show_opt_name ?b ?o) _ _ => match type of Ka with Conc (show_args ?l) _ (_ :: ?r) =>
    assert (H : Conc ((opt_kw m "stringifier" ++ show_ReturnType [] t ++ show_opt_name b o) ++ show_args l ++ [GP ";"]) j r) end end end end.
  { conc. }
  apply args_before in H; [|ns; [apply ns_ReturnType|apply ns_opt_name]]. apply (Before_det _ _ _ HB) in H. discriminate.
Qed.
Lemma no_OperationNamespace i a j e x : Ev e_attributes i (Some (a, j)) -> Before j (TName e x) -> Ev e_OperationNamespaceMember i None.
Proof.
  intros Ea HB. eapply (Ev_not _ _ true true); [auto with shape|]. intros n r m H. unfold e_OperationNamespaceMember in H. kinv H. subst.
  attrs_same Ea. kname e_ReturnType Kt. apply (K_ReturnType _ []) in Kt as (Kt & _ & Kl); [|apply not_head_nil].
  kname (e_Option e_Identifier) Kr. apply (K_opt_name _ _ _ _ _ Kr) in Kl.
  kname (e_Parenthesized e_ArgumentList) Ka. apply K_args in Ka as [Ka _].
  match type of Kt with Conc (show_ReturnType [] ?t) _ _ => 
    match type of Kl with Conc (show_opt_name ?b ?o) _ _ => match type of Ka with Conc (show_args ?l) _ (_ :: ?r) =>
    assert (H : Conc ((show_ReturnType [] t ++ show_opt_name b o) ++ show_args l ++ [GP ";"]) j r) end end end.
  { conc. }
  apply args_before in H; [|ns; [apply ns_ReturnType|apply ns_opt_name]]. apply (Before_det _ _ _ HB) in H. discriminate.
Qed.

(** ** Operations *)
Lemma not_kw (P : list tok -> Prop) w i : (i = kw w :: tl i -> P i) -> ((forall k, i <> kw w :: k) -> P i) -> P i.
Proof.
  intros H1 H2. destruct (tok_eqb (hd (TPunct "") i) (kw w)) eqn:E.
  - apply tok_eqb_eq in E. destruct i as [|x i]; [discriminate|]. cbn in E. subst. apply H1. auto.
  - apply H2. intros k ->. cbn [hd] in E. rewrite tok_eqb_refl in E. discriminate.
Qed.
(** The return type, optional name and arguments. *)
Lemma C_op_tail bad t o l i r : Conc (show_ReturnType bad t ++ show_opt_name (return_ends_long t) o ++ show_args l ++ [GP ";"]) i r ->
  wf_ReturnType t -> wf_args l ->
  exists j k, Ev e_ReturnType i (Some (t, j)) /\ Ev (e_Option e_Identifier) j (Some (o, k)) /\
    Ev (e_Parenthesized e_ArgumentList) k (Some (l, TPunct ";" :: r)).
Proof.
  intros H Hw Hl. apply Conc_split in H as (j & H1 & H). apply Conc_split in H as (k & H2 & H). apply Conc_split in H as (m & H3 & H).
  cinv H. exists j, k. assert (E3 := Cf_args _ _ _ H3 Hl). unfold show_args in H3. cinv1 H3.
  destruct o as [x|]; cbn [show_opt_name] in H2; cinv H2.
  - repeat split; auto.
    + eapply Cf_ReturnType; eauto. apply tfol_name.
    + apply Ev_opt_Some. apply Ev_ident.
  - repeat split; auto.
    + eapply Cf_ReturnType; eauto; [apply tfol_p; discriminate|intros _ r'; discriminate].
    + apply Ev_opt_None. erej.
Qed.
Lemma raw_op_tail w bad t o l j r :
  Conc (show_ReturnType bad t ++ show_opt_name (return_ends_long t) o ++ show_args l ++ [GP ";"]) (kw w :: j) r ->
  existsb (text_eqb (str w)) (map str ("undefined" :: "any" :: nonany_heads)%string) = false ->
  (exists k, j = TPunct "?" :: k) \/ (exists e x k, j = TName e x :: k) \/
  (exists k, j = TPunct "(" :: k) /\ plain_identifier t = true /\ o = None.
Proof.
  intros H Hw. apply Conc_split in H as (k & H1 & H). apply raw_return in H1 as (q & -> & H1); auto.
  apply Conc_q_inv in H1. destruct q as [u|]; subst; eauto. right.
  apply Conc_split in H as (m & H2 & H). unfold show_args in H. norm_in H. cinv1 H.
  destruct o as [x|]; cbn [show_opt_name] in H2; cinv H2; eauto 8.
Qed.

Lemma C_Operation i r m : Conc (show_OperationInterfaceMember m) i r -> wf_InterfaceMember (InterfaceMember_Operation m) ->
  Ev e_InterfaceMember i (Some (InterfaceMember_Operation m, r)).
Proof.
  destruct m as [a md sp t o l]. cbn [show_OperationInterfaceMember wf_InterfaceMember]. intros H (Hw1 & Hw2 & Hw3).
  apply Conc_split in H as (j & H1 & H).
  assert (HB : Before j (TPunct ")")).
  { rewrite !app_assoc in H. rewrite <- (app_assoc _ _ [GP ";"]) in H. apply args_before in H; auto.
    ns; [apply ns_SS|apply ns_Special|apply ns_ReturnType|apply ns_opt_name]. }
  apply Conc_split in H as (k1 & H2 & H). apply Conc_split in H as (k2 & H3 & H).
  destruct (C_op_tail _ _ _ _ _ _ H Hw2 Hw3) as (k3 & k4 & E1 & E2 & E3).
  assert (Hk2 : forall bad, incl bad (operation_bad md sp t o) -> existsb (fun w => existsb (text_eqb (str w)) (map str ("undefined" :: "any" :: nonany_heads)%string)) bad = false ->
    forall w, In w bad -> forall k', k2 <> kw w :: k').
  { intros bad Hb He w Hw. apply Conc_split in H as (k' & H & _). apply return_head in H as [_ H]. eapply head_not; [exact H|apply Hb; auto|].
    clear - He Hw. induction bad as [|b bad IH]; [destruct Hw|]. cbn [existsb] in He. apply orb_false_iff in He as [He1 He2].
    destruct Hw as [<-|Hw]; auto. }
  assert (Em : Ev (e_Option e_StringifierOrStatic) j (Some (md, k1))).
  { destruct md as [[]|]; cbn [show_SS] in H2; cinv H2; try (apply (Ev_accept 1); reflexivity).
    apply Ev_opt_None.
    destruct sp as [[]|]; cbn [show_Special] in H3; cinv H3; try erej.
    specialize (Hk2 ["stringifier"; "static"]%string). cbn [operation_bad] in Hk2.
    apply Ev_or2; [|apply Ev_or2; [|apply Ev_end]]; apply Ev_map_no; apply Ev_T_no; apply Hk2; try reflexivity; try solve [inl];
      (intros w Hw; apply in_or_app; right; apply in_or_app; left; exact Hw). }
  assert (Es : Ev (e_Option e_Special) k1 (Some (sp, k2))).
  { destruct sp as [[]|]; cbn [show_Special] in H3; cinv H3; try (apply (Ev_accept 1); reflexivity).
    apply Ev_opt_None.
    specialize (Hk2 ["getter"; "setter"; "deleter"; "legacycaller"]%string). cbn [operation_bad] in Hk2.
    repeat (apply Ev_or2; [apply Ev_map_no; apply Ev_T_no; apply Hk2; try reflexivity; try solve [inl];
      (intros w Hw; apply in_or_app; left; exact Hw)|]). apply Ev_end. }
  assert (Hnb : a = None -> forall k, j <> TPunct "[" :: k).
  { intros _. destruct md as [[]|]; cbn [show_SS] in H2; cinv H2; try discriminate.
    destruct sp as [[]|]; cbn [show_Special] in H3; cinv H3; try discriminate. eapply return_tail_nb; eauto. }
  assert (Ea := Cf_attributes _ _ _ H1 Hw1 Hnb).
  apply Ev_or2. { apply Ev_map_no. eapply no_Const; eauto. }
  apply Ev_or2. { apply Ev_map_no. eapply no_Attribute; eauto. }
  apply Ev_or2.
  { apply Ev_map_no. after Ea. apply (not_kw (fun j => Ev (PBind (T_ Constructor) _) j None) "constructor" j).
    - intros Ej. rewrite Ej. eapply Ev_bind; [apply (Ev_T Constructor)|].
      destruct md as [[]|]; cbn [show_SS] in H2; cinv H2; try discriminate.
      destruct sp as [[]|]; cbn [show_Special] in H3; cinv H3; try discriminate.
      rewrite Ej in H. apply raw_op_tail in H as [(k & ->)|[(e & x & k & ->)|((k & E) & Hp & ->)]]; [erej|erej| |reflexivity].
      exfalso. cbn [operation_bad] in Hk2. rewrite Hp in Hk2.
      refine (Hk2 ["constructor"%string] _ eq_refl "constructor"%string (or_introl eq_refl) _ Ej). intros w Hw. apply in_or_app; right; apply in_or_app; right; exact Hw.
    - intros Hc. apply Ev_bind_no. apply Ev_T_no. exact Hc. }
  apply Ev_or1. apply Ev_map. after Ea. eapply Ev_bind; [exact Em|]. eapply Ev_bind; [exact Es|]. eapply Ev_bind; [exact E1|].
  eapply Ev_bind; [exact E2|]. eapply Ev_bind; [exact E3|]. eapply Ev_bind; [apply (Ev_T SemiColon)|]. apply Ev_ret.
Qed.

(** ** Members of interfaces *)
Ltac semi := eapply Ev_bind; [apply (Ev_T SemiColon)|apply Ev_ret].
Lemma C_attr_tail t x i r : Conc (show_AttributedType [] t ++ [name_after (attributed_ends_long t) x; GP ";"]) i r ->
  wf_AttributedType t -> exists e, Ev e_AttributedType i (Some (t, TName e x :: TPunct ";" :: r)).
Proof.
  intros H Hw. apply Conc_split in H as (k & H1 & H). cinv H. exists e. eapply Cf_AttributedType; eauto. apply tfol_name.
Qed.
Lemma C_InterfaceMember m i r : Conc (show_InterfaceMember m) i r -> wf_InterfaceMember m -> Ev e_InterfaceMember i (Some (m, r)).
Proof.
  destruct m as [m|m|m|m|m|m|m|m|m]; cbn [show_InterfaceMember]; intros H Hw.
  - apply Ev_or1. apply Ev_map. apply C_ConstMember; auto.
  - destruct m as [a s o t x]. cbn [show_AttributeInterfaceMember wf_InterfaceMember] in *. destruct Hw as [Hw1 Hw2].
    apply Conc_split in H as (j & H1 & H).
    apply Conc_split in H as (k1 & H2 & H). apply Conc_split in H as (k2 & H3 & H). cinv1 H. apply C_attr_tail in H as (e & H); auto.
    apply Conc_optkw_inv in H3.
    assert (Ea : Ev e_attributes i (Some (a, j))).
    { apply Cf_attributes; auto. intros _ k. destruct s as [[]|]; cbn [show_SIS] in H2; cinv H2; try discriminate.
      destruct o; subst; discriminate. }
    apply Ev_or2. { apply Ev_map_no. after Ea. destruct s as [[]|], o; cbn [show_SIS] in H2; cinv H2; erej. }
    apply Ev_or1. apply Ev_map. after Ea.
    apply (Ev_bind _ _ _ _ _ s k1). { destruct s as [[]|], o; cbn [show_SIS] in H2; cinv H2; apply (Ev_accept 1); reflexivity. }
    apply (Ev_bind _ _ _ _ _ o (kw "attribute" :: j0)). { destruct o as [[]|]; subst; apply (Ev_accept 1); reflexivity. }
    eapply Ev_bind; [apply (Ev_T Attribute)|]. eapply Ev_bind; [exact H|]. eapply Ev_bind; [apply Ev_ident|]. semi.
  - destruct m as [a l]. cbn [show_ConstructorInterfaceMember wf_InterfaceMember] in *. destruct Hw as [Hw1 Hw2]. norm_in H.
    apply Conc_split in H as (j & H1 & H). cinv1 H. apply Conc_split in H as (k & H2 & H). cinv H.
    assert (Ea : Ev e_attributes i (Some (a, kw "constructor" :: j0))) by (apply Cf_attributes; auto; nobr).
    ano Ea. apply Ev_or1. apply Ev_map. after Ea. eapply Ev_bind; [apply (Ev_T Constructor)|].
    eapply Ev_bind; [apply Cf_args; eauto|]. semi.
  - apply C_Operation; auto.
  - destruct m as [[a g]|[a g]]; cbn [show_IterableInterfaceMember wf_InterfaceMember] in *; destruct Hw as [Hw1 Hw2];
      apply Conc_split in H as (j & H1 & H); norm_in H; cinv1 H; apply Conc_split in H as (k & H2 & H); cinv H;
      (assert (Ea : Ev e_attributes i (Some (a, kw "iterable" :: j0))) by (apply Cf_attributes; auto; nobr)).
    + assert (Eg := Cf_one _ _ _ H2 Hw2). unfold show_one in H2. cinv1 H2. ano Ea. 
      apply Ev_or1. apply Ev_map. apply Ev_or1. apply Ev_map. after Ea. eapply Ev_bind; [apply (Ev_T Iterable)|]. eapply Ev_bind; [exact Eg|]. semi.
    + destruct (Cf_pair _ _ _ H2 Hw2) as [Eg En]. unfold show_pair in H2. cinv1 H2. ano Ea.
      apply Ev_or1. apply Ev_map. apply Ev_or2.
      { apply Ev_map_no. after Ea. eapply Ev_bind; [apply (Ev_T Iterable)|]. apply Ev_bind_no. exact En. }
      apply Ev_or1. apply Ev_map. after Ea. eapply Ev_bind; [apply (Ev_T Iterable)|]. eapply Ev_bind; [exact Eg|]. semi.
  - destruct m as [[a g o]|[a g o]]; cbn [show_AsyncIterableInterfaceMember wf_InterfaceMember] in *; destruct Hw as (Hw1 & Hw2 & Hw3);
      apply Conc_split in H as (j & H1 & H); norm_in H; cinv1 H; cinv1 H; apply Conc_split in H as (k & H2 & H);
      apply Cf_opt_args in H; auto;
      (assert (Ea : Ev e_attributes i (Some (a, kw "async" :: kw "iterable" :: j))) by (apply Cf_attributes; auto; nobr)).
    + assert (Eg := Cf_one _ _ _ H2 Hw2). unfold show_one in H2. cinv1 H2. ano Ea.
      apply Ev_or2. { apply Ev_map_no. ano Ea. apply Ev_end. }
      apply Ev_or1. apply Ev_map. apply Ev_or1. apply Ev_map. after Ea.
      eapply Ev_bind; [apply (Ev_T Async)|]. eapply Ev_bind; [apply (Ev_T Iterable)|]. eapply Ev_bind; [exact Eg|].
      eapply Ev_bind; [exact H|]. semi.
    + destruct (Cf_pair _ _ _ H2 Hw2) as [Eg En]. unfold show_pair in H2. cinv1 H2. ano Ea.
      apply Ev_or2. { apply Ev_map_no. ano Ea. apply Ev_end. }
      apply Ev_or1. apply Ev_map. apply Ev_or2.
      { apply Ev_map_no. after Ea. eapply Ev_bind; [apply (Ev_T Async)|]. eapply Ev_bind; [apply (Ev_T Iterable)|]. apply Ev_bind_no. exact En. }
      apply Ev_or1. apply Ev_map. after Ea.
      eapply Ev_bind; [apply (Ev_T Async)|]. eapply Ev_bind; [apply (Ev_T Iterable)|]. eapply Ev_bind; [exact Eg|].
      eapply Ev_bind; [exact H|]. semi.
  - destruct m as [a o g]. cbn [show_MaplikeInterfaceMember wf_InterfaceMember] in *. destruct Hw as [Hw1 Hw2].
    apply Conc_split in H as (j & H1 & H). apply Conc_split in H as (k & H2 & H). norm_in H. cinv1 H.
    apply Conc_split in H as (k' & H3 & H). cinv H. apply Conc_optkw_inv in H2.
    destruct (Cf_pair _ _ _ H3 Hw2) as [Eg _]. unfold show_pair in H3. cinv1 H3.
    assert (Ea : Ev e_attributes i (Some (a, j))). { apply Cf_attributes; auto. intros _ k. destruct o; subst; discriminate. }
    destruct o as [[]|]; subst; ano Ea.
    + do 2 (apply Ev_or2; [apply Ev_map_no; ano Ea; apply Ev_end|]). apply Ev_or1. apply Ev_map. after Ea.
      eapply Ev_bind; [apply Ev_opt_Some; apply (Ev_T ReadOnly)|]. eapply Ev_bind; [apply (Ev_T Maplike)|]. eapply Ev_bind; [exact Eg|]. semi.
    + do 2 (apply Ev_or2; [apply Ev_map_no; ano Ea; apply Ev_end|]). apply Ev_or1. apply Ev_map. after Ea.
      eapply Ev_bind; [apply Ev_opt_None; erej|]. eapply Ev_bind; [apply (Ev_T Maplike)|]. eapply Ev_bind; [exact Eg|]. semi.
  - destruct m as [a o g]. cbn [show_SetlikeInterfaceMember wf_InterfaceMember] in *. destruct Hw as [Hw1 Hw2].
    apply Conc_split in H as (j & H1 & H). apply Conc_split in H as (k & H2 & H). norm_in H. cinv1 H.
    apply Conc_split in H as (k' & H3 & H). cinv H. apply Conc_optkw_inv in H2.
    assert (Eg := Cf_one _ _ _ H3 Hw2). unfold show_one in H3. cinv1 H3.
    assert (Ea : Ev e_attributes i (Some (a, j))). { apply Cf_attributes; auto. intros _ k. destruct o; subst; discriminate. }
    destruct o as [[]|]; subst; ano Ea.
    + do 2 (apply Ev_or2; [apply Ev_map_no; ano Ea; apply Ev_end|]). ano Ea. apply Ev_or1. apply Ev_map. after Ea.
      eapply Ev_bind; [apply Ev_opt_Some; apply (Ev_T ReadOnly)|]. eapply Ev_bind; [apply (Ev_T Setlike)|]. eapply Ev_bind; [exact Eg|]. semi.
    + do 2 (apply Ev_or2; [apply Ev_map_no; ano Ea; apply Ev_end|]). ano Ea. apply Ev_or1. apply Ev_map. after Ea.
      eapply Ev_bind; [apply Ev_opt_None; erej|]. eapply Ev_bind; [apply (Ev_T Setlike)|]. eapply Ev_bind; [exact Eg|]. semi.
  - destruct m as [a]. cbn [show_StringifierMember wf_InterfaceMember] in *. apply Conc_split in H as (j & H1 & H). cinv H.
    assert (Ea : Ev e_attributes i (Some (a, kw "stringifier" :: TPunct ";" :: r))) by (apply Cf_attributes; auto; nobr).
    ano Ea. do 2 (apply Ev_or2; [apply Ev_map_no; ano Ea; apply Ev_end|]). ano Ea. apply Ev_or1. apply Ev_map. after Ea.
    eapply Ev_bind; [apply (Ev_T Stringifier)|]. semi.
Qed.

(** ** Members of mixins, namespaces and dictionaries *)
Lemma C_StringifierMember i r m : Conc (show_StringifierMember m) i r -> match m with mkStringifierMember a => wf_attributes a end ->
  Ev e_StringifierMember i (Some (m, r)).
Proof.
  destruct m as [a]. cbn [show_StringifierMember]. intros H Hw. apply Conc_split in H as (j & H1 & H). cinv H.
  eapply Ev_bind; [apply Cf_attributes; eauto; nobr|]. eapply Ev_bind; [apply (Ev_T Stringifier)|]. semi.
Qed.
Lemma attr_before g t x i r : Conc (g ++ show_AttributedType [] t ++ [name_after (attributed_ends_long t) x; GP ";"]) i r -> NS g ->
  exists e, Before i (TName e x).
Proof.
  intros H Hg. rewrite app_assoc in H. apply Conc_split in H as (j & H1 & H). cinv H. exists e.
  eapply Before_intro; [exact H1| |discriminate]. apply NS_app; auto. apply ns_AttributedType.
Qed.
Lemma C_MixinMember m i r : Conc (show_MixinMember m) i r -> wf_MixinMember m -> Ev e_MixinMember i (Some (m, r)).
Proof.
  destruct m as [m|m|m|m]; cbn [show_MixinMember]; intros H Hw.
  - apply Ev_or1. apply Ev_map. apply C_ConstMember; auto.
  - destruct m as [a s t o l]. destruct Hw as (Hw1 & Hw2 & Hw3). apply Conc_split in H as (j & H1 & H).
    assert (HB : Before j (TPunct ")")).
    { rewrite !app_assoc in H. rewrite <- (app_assoc _ _ [GP ";"]) in H. apply args_before in H; auto.
      ns; [apply ns_ReturnType|apply ns_opt_name]. }
    apply Conc_split in H as (k & H2 & H). apply Conc_optkw_inv in H2.
    destruct (C_op_tail _ _ _ _ _ _ H Hw2 Hw3) as (k3 & k4 & E1 & E2 & E3).
    assert (Ea : Ev e_attributes i (Some (a, j))).
    { apply Cf_attributes; auto. intros _. destruct s; subst; [discriminate|]. eapply return_tail_nb; eauto. }
    apply Ev_or2. { apply Ev_map_no. eapply no_Const; eauto. }
    apply Ev_or1. apply Ev_map. after Ea. apply (Ev_bind _ _ _ _ _ s k).
    { destruct s as [[]|]; subst; [apply (Ev_accept 1); reflexivity|]. apply Ev_opt_None. apply Ev_T_no.
      apply Conc_split in H as (k' & H & _). apply return_head in H as [_ H]. eapply head_not; [exact H|left; reflexivity|reflexivity]. }
    eapply Ev_bind; [exact E1|]. eapply Ev_bind; [exact E2|]. eapply Ev_bind; [exact E3|]. semi.
  - destruct m as [a s o t x]. destruct Hw as [Hw1 Hw2]. apply Conc_split in H as (j & H1 & H).
    assert (HB : exists e, Before j (TName e x)).
    { change (GKw "attribute" :: show_AttributedType [] t ++ [name_after (attributed_ends_long t) x; GP ";"]) with
        ([GKw "attribute"] ++ show_AttributedType [] t ++ [name_after (attributed_ends_long t) x; GP ";"]) in H.
      rewrite 2!app_assoc in H. apply attr_before in H; auto. ns. }
    destruct HB as (e' & HB).
    apply Conc_split in H as (k1 & H2 & H). apply Conc_split in H as (k2 & H3 & H). cinv1 H. apply C_attr_tail in H as (e & H); auto.
    apply Conc_optkw_inv in H3. apply Conc_optkw_inv in H2.
    assert (Ea : Ev e_attributes i (Some (a, j))).
    { apply Cf_attributes; auto. intros _ k. destruct s, o; subst; discriminate. }
    apply Ev_or2. { apply Ev_map_no. after Ea. destruct s, o; subst; erej. }
    apply Ev_or2. { apply Ev_map_no. eapply no_OperationMixin; eauto. }
    apply Ev_or1. apply Ev_map. after Ea.
    apply (Ev_bind _ _ _ _ _ s k1). { destruct s as [[]|], o as [[]|]; subst; apply (Ev_accept 1); reflexivity. }
    apply (Ev_bind _ _ _ _ _ o (kw "attribute" :: j0)). { destruct o as [[]|]; subst; apply (Ev_accept 1); reflexivity. }
    eapply Ev_bind; [apply (Ev_T Attribute)|]. eapply Ev_bind; [exact H|]. eapply Ev_bind; [apply Ev_ident|]. semi.
  - assert (E := C_StringifierMember _ _ _ H). destruct m as [a]. cbn [show_StringifierMember wf_MixinMember] in *.
    apply Conc_split in H as (j & H1 & H). cinv H.
    assert (Ea : Ev e_attributes i (Some (a, kw "stringifier" :: TPunct ";" :: r))) by (apply Cf_attributes; auto; nobr).
    ano Ea. apply Ev_or1. apply Ev_map. apply E. auto.
Qed.
Lemma C_NamespaceMember m i r : Conc (show_NamespaceMember m) i r -> wf_NamespaceMember m -> Ev e_NamespaceMember i (Some (m, r)).
Proof.
  destruct m as [m|m|m]; cbn [show_NamespaceMember]; intros H Hw.
  - destruct m as [a t x v]. norm_in H. apply Conc_split in H as (j & H1 & H).
    cinv1 H. apply Conc_split in H as (k & H2 & H). cinv1 H. cinv1 H. apply Conc_const_inv in H as (l & -> & H). cinv H.
    apply Ev_or1. apply Ev_map.
    eapply Ev_bind; [apply Cf_attributes; eauto; nobr|]. eapply Ev_bind; [apply (Ev_T Const)|].
    eapply Ev_bind; [eapply C_ConstType; eauto; apply tfol_name|]. eapply Ev_bind; [apply Ev_ident|].
    eapply Ev_bind; [apply (Ev_T Assign)|]. eapply Ev_bind; [apply Ev_const|]. semi.
  - destruct m as [a t o l]. destruct Hw as (Hw1 & Hw2 & Hw3). apply Conc_split in H as (j & H1 & H).
    assert (HB : Before j (TPunct ")")).
    { rewrite !app_assoc in H. rewrite <- (app_assoc _ _ [GP ";"]) in H. apply args_before in H; auto.
      ns; [apply ns_ReturnType|apply ns_opt_name]. }
    destruct (C_op_tail _ _ _ _ _ _ H Hw2 Hw3) as (k3 & k4 & E1 & E2 & E3).
    assert (Ea : Ev e_attributes i (Some (a, j))).
    { apply Cf_attributes; auto. intros _. eapply return_tail_nb; eauto. }
    apply Ev_or2. { apply Ev_map_no. eapply no_ConstNamespace; eauto. }
    apply Ev_or1. apply Ev_map. after Ea.
    eapply Ev_bind; [exact E1|]. eapply Ev_bind; [exact E2|]. eapply Ev_bind; [exact E3|]. semi.
  - destruct m as [a t x]. destruct Hw as [Hw1 Hw2]. apply Conc_split in H as (j & H1 & H).
    assert (HB : exists e, Before j (TName e x)).
    { apply (attr_before [GKw "readonly"; GKw "attribute"]) in H; auto. ns. }
    destruct HB as (e' & HB). cinv1 H. cinv1 H. apply C_attr_tail in H as (e & H); auto.
    match type of HB with Before ?j _ => assert (Ea : Ev e_attributes i (Some (a, j))) by (apply Cf_attributes; auto; nobr) end.
    ano Ea. apply Ev_or2. { apply Ev_map_no. eapply no_OperationNamespace; eauto. }
    apply Ev_or1. apply Ev_map. after Ea. eapply Ev_bind; [apply (Ev_T ReadOnly)|].
    eapply Ev_bind; [apply (Ev_T Attribute)|]. eapply Ev_bind; [exact H|]. eapply Ev_bind; [apply Ev_ident|]. semi.
Qed.
Lemma C_DictionaryMember m i r : Conc (show_DictionaryMember m) i r -> wf_DictionaryMember m -> Ev e_DictionaryMember i (Some (m, r)).
Proof.
  destruct m as [a o t x d]. cbn [show_DictionaryMember wf_DictionaryMember]. intros H [Hw1 Hw2].
  apply Conc_split in H as (j & H1 & H). apply Conc_split in H as (k & H2 & H). apply Conc_split in H as (l & H3 & H).
  apply Conc_optkw_inv in H2. cinv1 H.
  assert (Hd : d = None -> forall k, j0 <> TPunct "=" :: k). { intros ->. cbn [show_default app] in H. cinv H. discriminate. }
  apply C_opt_default in H as (k' & E & H); auto. cinv H.
  eapply Ev_bind. { apply Cf_attributes; eauto. intros _. destruct o; subst; [discriminate|]. eapply type_no_bracket; eauto. }
  apply (Ev_bind _ _ _ _ _ o k).
  { destruct o as [[]|]; subst; [apply (Ev_accept 1); reflexivity|]. apply Ev_opt_None. apply Ev_T_no.
    apply type_head in H3 as [_ H3]. eapply head_not; [exact H3|left; reflexivity|reflexivity]. }
  eapply Ev_bind; [eapply Cf_Type; eauto; apply tfol_name|]. eapply Ev_bind; [apply Ev_ident|].
  eapply Ev_bind; [exact E|]. semi.
Qed.

(** ** Definitions *)
Lemma T_case t s B (f : unit -> pexp B) e l k : term_tok t = kw s -> Ev (f tt) k None -> Ev (PBind (T_ t) f) (TName e l :: k) None.
Proof.
  intros Et H. destruct (tok_eqb (TName e l) (kw s)) eqn:E.
  - apply tok_eqb_eq in E. rewrite E, <- Et. eapply Ev_bind; [apply Ev_T|exact H].
  - apply Ev_bind_no. apply Ev_T_no. intros r. rewrite Et. intros E2. injection E2 as -> -> ->.
    fold (kw s) in E. rewrite tok_eqb_refl in E. discriminate.
Qed.
Lemma C_enum v i r : v <> [] -> Conc (join (GP ",") (map (fun s => [GStr s]) v) ++ [GOptComma; GP "}"; GP ";"]) i r ->
  Ev (e_Braced e_EnumValueList) (TPunct "{" :: i) (Some (v, TPunct ";" :: r)).
Proof.
  intros Hv H. apply Conc_split in H as (j & H1 & H).
  assert (Hj : j = TPunct "," :: TPunct "}" :: TPunct ";" :: r \/ j = TPunct "}" :: TPunct ";" :: r).
  { inversion H; subst; match goal with K : Conc [GP "}"; GP ";"] _ _ |- _ => cinv K end; auto. }
  clear H. eapply Ev_bind; [apply (Ev_T OpenBrace)|].
  eapply (Ev_bind _ _ _ _ _ v (TPunct "}" :: TPunct ";" :: r)); [|eapply Ev_bind; [apply (Ev_T CloseBrace)|apply Ev_ret]].
  eapply Ev_bind; [|apply Ev_ret].
  apply (Ev_bind _ _ _ _ _ v j).
  2:{ destruct Hj as [-> | ->]; (eapply Ev_bind; [|apply Ev_ret]); [apply Ev_opt_Some; apply (Ev_T Comma)|apply Ev_opt_None; erej]. }
  destruct v as [|s v]; [congruence|]. rewrite join_cons in H1. cbn [app] in H1. cinv1 H1.
  eapply Ev_sepne_cons; [apply Ev_str|cbn; lia|]. clear Hv.
  revert j0 H1. induction v as [|s' v IH]; intros j0 H1.
  - apply Conc_nil_inv in H1. subst. destruct Hj as [-> | ->].
    + eapply ST_back; [apply (Ev_T Comma)|cbn; lia|erej].
    + apply ST_stop. erej.
  - cbn [flat_map app] in H1. cinv1 H1. cinv1 H1. eapply ST_more; [apply (Ev_T Comma)|cbn; lia|apply Ev_str|cbn; lia|]. apply IH; auto.
Qed.
Lemma Cf_braced A (q : pexp A) al (f : A -> list gtok) (w : A -> Prop) l i r : Shape al q true ->
  (forall a i r, Conc (f a) i r -> w a -> Ev q i (Some (a, r))) -> (forall r, Ev q (TPunct "}" :: r) None) ->
  Conc (show_body f l ++ [GP ";"]) i r -> All w l -> Ev (e_Braced (e_Vec q)) i (Some (l, TPunct ";" :: r)).
Proof. intros HS Hq Hn H Hw. apply (Cf_body A q al f w l [GP ";"]) in H as (j & E & H); auto. cinv H. exact E. Qed.
Lemma Cf_inh_braced A (q : pexp A) al (f : A -> list gtok) (w : A -> Prop) h l i r : Shape al q true ->
  (forall a i r, Conc (f a) i r -> w a -> Ev q i (Some (a, r))) -> (forall r, Ev q (TPunct "}" :: r) None) ->
  Conc (show_inheritance h ++ show_body f l ++ [GP ";"]) i r -> All w l ->
  exists j, Ev (e_Option e_Inheritance) i (Some (h, j)) /\ Ev (e_Braced (e_Vec q)) j (Some (l, TPunct ";" :: r)).
Proof.
  intros HS Hq Hn H Hw. pose proof H as H'. apply (Cf_inheritance h) in H as (j & E & H). exists (TPunct "{" :: j). split; auto.
  eapply (Cf_braced A q al f w); eauto. unfold show_body. cbn [app]. constructor. exact H.
Qed.
Lemma I_body : forall h l i r, Conc (show_inheritance h ++ show_body show_InterfaceMember l ++ [GP ";"]) i r -> All wf_InterfaceMember l ->
  exists j, Ev (e_Option e_Inheritance) i (Some (h, j)) /\ Ev (e_Braced e_InterfaceMembers) j (Some (l, TPunct ";" :: r)).
Proof.
  intros h l i r. apply (Cf_inh_braced _ _ true); [auto with shape|exact C_InterfaceMember|]. intros r'. erej.
Qed.
Lemma D_body : forall h l i r, Conc (show_inheritance h ++ show_body show_DictionaryMember l ++ [GP ";"]) i r -> All wf_DictionaryMember l ->
  exists j, Ev (e_Option e_Inheritance) i (Some (h, j)) /\ Ev (e_Braced e_DictionaryMembers) j (Some (l, TPunct ";" :: r)).
Proof.
  intros h l i r. apply (Cf_inh_braced _ _ true); [auto with shape|exact C_DictionaryMember|]. intros r'. erej.
Qed.
Lemma I_braced : forall l i r, Conc (show_body show_InterfaceMember l ++ [GP ";"]) i r -> All wf_InterfaceMember l ->
  Ev (e_Braced e_InterfaceMembers) i (Some (l, TPunct ";" :: r)).
Proof. intros l i r. apply (Cf_braced _ _ true); [auto with shape|exact C_InterfaceMember|]. intros r'. erej. Qed.
Lemma D_braced : forall l i r, Conc (show_body show_DictionaryMember l ++ [GP ";"]) i r -> All wf_DictionaryMember l ->
  Ev (e_Braced e_DictionaryMembers) i (Some (l, TPunct ";" :: r)).
Proof. intros l i r. apply (Cf_braced _ _ true); [auto with shape|exact C_DictionaryMember|]. intros r'. erej. Qed.
Lemma M_braced : forall l i r, Conc (show_body show_MixinMember l ++ [GP ";"]) i r -> All wf_MixinMember l ->
  Ev (e_Braced e_MixinMembers) i (Some (l, TPunct ";" :: r)).
Proof. intros l i r. apply (Cf_braced _ _ true); [auto with shape|exact C_MixinMember|]. intros r'. erej. Qed.
Lemma N_braced : forall l i r, Conc (show_body show_NamespaceMember l ++ [GP ";"]) i r -> All wf_NamespaceMember l ->
  Ev (e_Braced e_NamespaceMembers) i (Some (l, TPunct ";" :: r)).
Proof. intros l i r. apply (Cf_braced _ _ true); [auto with shape|exact C_NamespaceMember|]. intros r'. erej. Qed.

Ltac attrs Ea := match goal with H1 : Conc (show_attributes ?a) ?i ?j |- _ =>
  assert (Ea : Ev e_attributes i (Some (a, j))) by (apply Cf_attributes; auto; nobr) end.
Ltac t_ t := eapply Ev_bind; [apply (Ev_T t)|].
Ltac use E := eapply Ev_bind; [exact E|].
Ltac pick Ea := ano Ea; apply Ev_or1; apply Ev_map; after Ea.
Lemma C_Definition d i r : Conc (show_Definition d) i r -> wf_Definition d -> Ev e_Definition i (Some (d, r)).
Proof.
  intros H Hw.
  destruct d as [d|d|d|d|d|d|d|d|d|d|d|d|d|d]; destruct d; cbn [show_Definition wf_Definition] in *;
    apply Conc_split in H as (j & H1 & H).
  - destruct Hw as (Hw1 & Hw2 & Hw3). cinv1 H. cinv1 H. cinv1 H. apply Conc_split in H as (k & H2 & H). apply Conc_split in H as (k' & H3 & H). cinv H.
    assert (E3 := Cf_args _ _ _ H3 Hw3). unfold show_args in H3. cinv1 H3. attrs Ea. pick Ea. t_ Callback.
    eapply Ev_bind; [apply Ev_ident|]. t_ Assign.
    eapply Ev_bind; [eapply Cf_ReturnType; eauto; [apply tfol_p; discriminate|intros _ r'; discriminate]|]. use E3. semi.
  - destruct Hw as (Hw1 & Hw2). cinv1 H. cinv1 H. cinv1 H. apply I_body in H as (k & E1 & E2); auto. attrs Ea. pick Ea.
    t_ Callback. t_ Interface. eapply Ev_bind; [apply Ev_ident|]. use E1. use E2. semi.
  - destruct Hw as (Hw1 & Hw2). cinv1 H. cinv1 H. apply I_body in H as (k & E1 & E2); auto. attrs Ea. pick Ea.
    t_ Interface. eapply Ev_bind; [apply Ev_ident|]. use E1. use E2. semi.
  - destruct Hw as (Hw1 & Hw2). cinv1 H. cinv1 H. cinv1 H. apply M_braced in H; auto. attrs Ea. pick Ea.
    t_ Interface. t_ Mixin. eapply Ev_bind; [apply Ev_ident|]. use H. semi.
  - destruct Hw as (Hw1 & Hw2). cinv1 H. cinv1 H. apply N_braced in H; auto. attrs Ea. pick Ea.
    t_ Namespace. eapply Ev_bind; [apply Ev_ident|]. use H. semi.
  - destruct Hw as (Hw1 & Hw2). cinv1 H. cinv1 H. apply D_body in H as (k & E1 & E2); auto. attrs Ea. pick Ea.
    t_ Dictionary. eapply Ev_bind; [apply Ev_ident|]. use E1. use E2. semi.
  - destruct Hw as (Hw1 & Hw2). cinv1 H. cinv1 H. cinv1 H. apply I_braced in H; auto. attrs Ea. pick Ea.
    t_ Partial. t_ Interface. eapply Ev_bind; [apply Ev_ident|]. use H. semi.
  - destruct Hw as (Hw1 & Hw2). cinv1 H. cinv1 H. cinv1 H. cinv1 H. apply M_braced in H; auto. attrs Ea. pick Ea.
    t_ Partial. t_ Interface. t_ Mixin. eapply Ev_bind; [apply Ev_ident|]. use H. semi.
  - destruct Hw as (Hw1 & Hw2). cinv1 H. cinv1 H. cinv1 H. apply D_braced in H; auto. attrs Ea. pick Ea.
    t_ Partial. t_ Dictionary. eapply Ev_bind; [apply Ev_ident|]. use H. semi.
  - destruct Hw as (Hw1 & Hw2). cinv1 H. cinv1 H. cinv1 H. apply N_braced in H; auto. attrs Ea. pick Ea.
    t_ Partial. t_ Namespace. eapply Ev_bind; [apply Ev_ident|]. use H. semi.
  - destruct Hw as (Hw1 & Hw2). cinv1 H. cinv1 H. cinv1 H. apply C_enum in H; auto. attrs Ea. pick Ea.
    t_ Enum. eapply Ev_bind; [apply Ev_ident|]. use H. semi.
  - destruct Hw as (Hw1 & Hw2). cinv1 H. apply C_attr_tail in H as (e & H); auto. attrs Ea. pick Ea.
    t_ Typedef. use H. eapply Ev_bind; [apply Ev_ident|]. semi.
  - cinv H. attrs Ea.
    repeat (apply Ev_or2; [apply Ev_map_no; after Ea; eapply T_case; [reflexivity|erej]|]).
    apply Ev_or2. { apply Ev_map_no. after Ea. apply Ev_bind_no. apply Ev_T_no. intros k E. injection E as -> -> _. apply K; auto. left. reflexivity. }
    apply Ev_or1. apply Ev_map. after Ea. eapply Ev_bind; [apply Ev_ident|]. t_ Includes. eapply Ev_bind; [apply Ev_ident|]. semi.
  - cinv H. attrs Ea.
    repeat (apply Ev_or2; [apply Ev_map_no; after Ea; eapply T_case; [reflexivity|erej]|]).
    apply Ev_or2. { apply Ev_map_no. after Ea. apply Ev_bind_no. apply Ev_T_no. intros k E. injection E as -> -> _. apply K; auto. left. reflexivity. }
    apply Ev_or2. { apply Ev_map_no. after Ea. erej. }
    apply Ev_or1. apply Ev_map. after Ea. eapply Ev_bind; [apply Ev_ident|]. t_ Implements. eapply Ev_bind; [apply Ev_ident|]. semi.
Qed.

(** The list of definitions, up to a rest at which no definition starts. *)
Lemma C_Definitions d i r : Conc (show_Definitions d) i r -> wf_Definitions d -> Ev e_Definition r None ->
  Ev e_Definitions i (Some (d, r)).
Proof.
  intros H Hw Hn. apply Ev_many. revert i H Hw. induction d as [|a l IH]; intros i H Hw.
  - apply Conc_nil_inv in H. subst. apply Many_stop. auto.
  - cbn [show_Definitions flat_map] in H. apply Conc_split in H as (k & H1 & H2). destruct Hw as [Hw1 Hw2].
    pose proof (C_Definition _ _ _ H1 Hw1) as E. eapply Many_more; eauto.
    apply (Ev_len _ _ true) in E; auto with shape.
Qed.
