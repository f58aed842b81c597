(** * The crate accepts what [Supported] derives *)
From Coq Require Import String Ascii NArith Arith Bool List Lia.
From Verif Require Import Nom Lex Ast Grammar Spec LexFacts NumFacts TokFacts RunFacts Shapes TermFacts Api ApiFacts LexProps
  Tok TokRun TokSound TokComplete TokMembers Shows Exact Lexer WebIDL.
Import ListNotations.
Open Scope list_scope.

(** ** Inversion of derivations *)
Arguments supported : simpl never.
Arguments supported_reserved : simpl never.
Notation D := (Der supported supported_reserved).
Lemma D_nil n i r : D n [] i r -> i = r.
Proof. inversion 1; auto. Qed.
Lemma D_kw n s a i r : D n (Kw s :: a) i r -> exists i', i = TName false (str s) :: i' /\ D n a i' r.
Proof. inversion 1; subst. destruct t as [[] ?| | | | |]; cbn in *; try contradiction. subst. eauto. Qed.
Lemma D_pu n s a i r : D n (Pu s :: a) i r -> exists i', i = TPunct s :: i' /\ D n a i' r.
Proof. inversion 1; subst. destruct t as [[] ?| | | | |]; cbn in *; try contradiction. subst. eauto. Qed.
Lemma D_int n a i r : D n (Int :: a) i r -> exists l i', i = TInt l :: i' /\ D n a i' r.
Proof. inversion 1; subst. destruct t as [[] ?| | | | |]; cbn in *; try contradiction. eauto. Qed.
Lemma D_dec n a i r : D n (Dec :: a) i r -> exists l i', i = TFloat l :: i' /\ D n a i' r.
Proof. inversion 1; subst. destruct t as [[] ?| | | | |]; cbn in *; try contradiction. eauto. Qed.
Lemma D_str n a i r : D n (Str :: a) i r -> exists l i', i = TStr l :: i' /\ D n a i' r.
Proof. inversion 1; subst. destruct t as [[] ?| | | | |]; cbn in *; try contradiction. eauto. Qed.
Lemma D_neginf n a i r : D n (NegInf :: a) i r -> exists i', i = TNegInf :: i' /\ D n a i' r.
Proof. inversion 1; subst. destruct t as [[] ?| | | | |]; cbn in *; try contradiction. eauto. Qed.
(** An identifier: escaped, or not reserved. *)
Definition ident (n : text) (i r : list tok) : Prop :=
  i = TName true n :: r \/ (i = TName false n :: r /\ ~ In n (map str supported_reserved)).
Lemma D_id n a i r : D n (Id :: a) i r -> exists x m, ident x i m /\ D n a m r.
Proof.
  inversion 1; subst. destruct t as [[] x| | | | |]; cbn in *; try contradiction; exists x; eexists; split; eauto; unfold ident; auto.
Qed.
Lemma D_nt n x y a i r : D n (Nt x :: y :: a) i r -> exists m, D n [Nt x] i m /\ D n (y :: a) m r.
Proof.
  inversion 1; subst; [destruct t as [[] ?| | | | |]; cbn in *; contradiction|]. eexists. split; eauto. econstructor; eauto. constructor.
Qed.
Lemma D_rule n x i r : D n [Nt x] i r -> exists n' rhs, n = S n' /\ In rhs (rhs_of supported x) /\ D n' rhs i r.
Proof.
  inversion 1; subst; [destruct t as [[] ?| | | | |]; cbn in *; contradiction|].
  match goal with H : D _ [] _ _ |- _ => apply D_nil in H; subst end. eauto.
Qed.

Ltac walk1 :=
  match goal with
  | H : D _ [] _ _ |- _ => apply D_nil in H; subst
  | H : D _ (Kw _ :: _) _ _ |- _ => apply D_kw in H as (? & -> & H)
  | H : D _ (Pu _ :: _) _ _ |- _ => apply D_pu in H as (? & -> & H)
  | H : D _ (Int :: _) _ _ |- _ => apply D_int in H as (? & ? & -> & H)
  | H : D _ (Dec :: _) _ _ |- _ => apply D_dec in H as (? & ? & -> & H)
  | H : D _ (Str :: _) _ _ |- _ => apply D_str in H as (? & ? & -> & H)
  | H : D _ (NegInf :: _) _ _ |- _ => apply D_neginf in H as (? & -> & H)
  | H : D _ (Id :: _) _ _ |- _ => let H' := fresh "Hi" in apply D_id in H as (? & ? & H' & H)
  | H : D _ (Nt _ :: _ :: _) _ _ |- _ => let H' := fresh "Hn" in apply D_nt in H as (? & H' & H)
  end.
Ltac walk := repeat walk1.
(** The right hand sides of a nonterminal. *)
Ltac rule H :=
  let n := fresh "n" in let rhs := fresh "rhs" in let E := fresh in let HI := fresh in
  apply D_rule in H as (n & rhs & E & HI & H); first [discriminate E | injection E as <- | subst];
  vm_compute in HI; repeat (destruct HI as [<-|HI]; [|]); [..|destruct HI].

(** ** Elements of concrete syntax *)
Lemma in_str k l : In (str k) (map str l) -> In k l.
Proof. intros H. apply in_map_iff in H as (x & E & H). apply str_inj in E. subst. auto. Qed.
Lemma not_reserved x bad : ~ In x (map str supported_reserved) -> incl bad supported_reserved -> ~ In x (map str bad).
Proof. intros H HI H'. apply H. apply in_map_iff in H' as (y & <- & H'). apply in_map, HI, H'. Qed.
Lemma incl_dec a b : forallb (fun x => existsb (String.eqb x) b) a = true -> incl a b.
Proof.
  intros H x Hx. rewrite forallb_forall in H. apply H in Hx. apply existsb_exists in Hx as (y & Hy & E). apply String.eqb_eq in E. subst. auto.
Qed.
Lemma ident_Conc x i r g k bad : ident x i k -> incl bad supported_reserved -> Conc g k r -> Conc (GId bad x :: g) i r.
Proof. intros [->|[-> H]] HI HC; constructor; auto. eapply not_reserved; eauto. Qed.
Lemma kw_Conc s i r g bad : ~ In s bad -> Conc g i r -> Conc (GId bad (str s) :: g) (TName false (str s) :: i) r.
Proof. intros H HC. constructor; auto. intros H'. apply H, in_str, H'. Qed.
Lemma long_ok b : incl (if b : bool then ["long"%string] else []) supported_reserved.
Proof. destruct b; apply incl_dec; vm_compute; reflexivity. Qed.

(** A name behind a type. *)
Definition is_name (x : text) (i r : list tok) : Prop := forall b g r', Conc g r r' -> Conc (name_after b x :: g) i r'.
Lemma ident_name x i r : ident x i r -> is_name x i r.
Proof. intros H b g r' HC. unfold name_after. eapply ident_Conc; eauto. apply long_ok. Qed.
Lemma kw_name s i : s <> "long"%string -> is_name (str s) (TName false (str s) :: i) i.
Proof. intros H b g r' HC. apply kw_Conc; auto. destruct b; cbn; intuition congruence. Qed.
Lemma ident_Id x i r : ident x i r -> forall bad g r', incl bad supported_reserved -> Conc g r r' -> Conc (GId bad x :: g) i r'.
Proof. intros. eapply ident_Conc; eauto. Qed.

Lemma L_ArgumentName n i r : D n [Nt "ArgumentName"] i r -> exists x, is_name x i r.
Proof.
  intros H. rule H; [rule H; walk; eexists; apply kw_name; discriminate|]. walk. eexists. apply ident_name; eauto.
Qed.
Lemma L_AttributeName n i r : D n [Nt "AttributeName"] i r -> exists x, is_name x i r.
Proof.
  intros H. rule H; [rule H; walk; eexists; apply kw_name; discriminate|]. walk. eexists. apply ident_name; eauto.
Qed.
Lemma L_OptionalOperationName n i r : D n [Nt "OptionalOperationName"] i r ->
  exists x, forall b g r', Conc g r r' -> Conc (show_opt_name b x ++ g) i r'.
Proof.
  intros H. rule H; [|walk; exists None; auto].
  assert (exists x, is_name x i r) as [x Hx]; [|exists (Some x); intros; apply Hx; auto].
  rule H; [rule H; walk; eexists; apply kw_name; discriminate|]. walk. eexists. apply ident_name; eauto.
Qed.
Lemma L_Null n i r : D n [Nt "Null"] i r -> exists q, forall g r', Conc g r r' -> Conc (opt_q q ++ g) i r'.
Proof. intros H. rule H; walk; [exists (Some tt)|exists None]; intros; cbn; auto. constructor. auto. Qed.
Lemma L_OptionalReadOnly n i r : D n [Nt "OptionalReadOnly"] i r -> exists q, forall g r', Conc g r r' -> Conc (opt_kw q "readonly" ++ g) i r'.
Proof. intros H. rule H; walk; [exists (Some tt)|exists None]; intros; cbn; auto. constructor. auto. Qed.
Lemma L_ConstValue n i r : D n [Nt "ConstValue"] i r -> exists v, Conc (show_ConstValue v) i r.
Proof.
  intros H. rule H.
  - rule H; walk; [exists (ConstValue_Boolean true)|exists (ConstValue_Boolean false)]; repeat constructor.
  - rule H; walk; [exists (ConstValue_Float (FloatLit_Value x))|exists (ConstValue_Float FloatLit_NegInfinity)|
      exists (ConstValue_Float FloatLit_Infinity)|exists (ConstValue_Float FloatLit_NaN)]; repeat constructor.
  - walk. exists (ConstValue_Integer x). repeat constructor.
Qed.
Lemma L_Default n i r : D n [Nt "Default"] i r -> exists d, Conc (show_default d) i r.
Proof.
  intros H. rule H; walk; [|exists None; constructor].
  cut (exists v, Conc (show_DefaultValue v) x r); [intros [v Hv]; exists (Some v); constructor; auto|].
  rule H; walk.
  - apply L_ConstValue in H as [[b|f|l|] H]; cbn in H; [exists (DefaultValue_Boolean b)|exists (DefaultValue_Float f)|
      exists (DefaultValue_Integer l)|exists DefaultValue_Null]; auto.
  - eexists (DefaultValue_String _). repeat constructor.
  - exists DefaultValue_EmptyArray. repeat constructor.
  - exists DefaultValue_EmptyDictionary. repeat constructor.
  - exists DefaultValue_Null. repeat constructor.
Qed.
Lemma L_StringType n i r : D n [Nt "StringType"] i r -> exists s, i = TName false (str s) :: r /\ In s ["ByteString"; "DOMString"; "USVString"]%string.
Proof. intros H. rule H; walk; eexists; split; eauto; cbn; auto. Qed.

Lemma Conc1 g i m r h : Conc g i m -> Conc h m r -> Conc (g ++ h) i r.
Proof. apply Conc_app. Qed.
(** Build [Conc] from the pieces. *)
Ltac conc1 :=
  lazymatch goal with
  | |- Conc [] _ _ => apply Conc_nil
  | |- Conc (GKw _ :: _) _ _ => apply Conc_kw
  | |- Conc (GP _ :: _) _ _ => apply Conc_p
  | |- Conc (GStr _ :: _) _ _ => apply Conc_str
  | |- Conc (GId [] _ :: _) _ _ => eapply ident_Conc; [eassumption|intros ? []|]
  | |- Conc (name_after _ _ :: _) _ _ => match goal with H : is_name _ _ _ |- _ => apply H end
  | |- Conc ((_ ++ _) ++ _) _ _ => rewrite <- app_assoc
  | |- Conc ((_ :: _) ++ _) _ _ => rewrite <- app_comm_cons
  | |- Conc ([] ++ _) _ _ => rewrite app_nil_l
  | |- Conc (_ ++ _) _ _ => first [match goal with H : _ |- _ => apply H end; [..|] | eapply Conc_app; [solve [eauto]|]]
  | |- Conc _ _ _ => solve [eauto]
  end.
Ltac conc := repeat conc1.

(** ** Primitive types *)
(** [bad] words for a type. *)
Definition clash : list string :=
  ["any"; "undefined"; "optional"; "required"; "getter"; "setter"; "deleter"; "legacycaller"; "stringifier"; "static"; "constructor"]%string.
Definition clash1 : list string := ["any"; "optional"; "required"]%string.
Lemma clash_reserved : incl clash supported_reserved.
Proof. apply incl_dec. vm_compute. reflexivity. Qed.
Lemma clash1_clash : incl clash1 clash.
Proof. apply incl_dec. vm_compute. reflexivity. Qed.
Lemma not_fuses x i : ~ In x (map str supported_reserved) -> ~ fuses x i.
Proof.
  intros H [[-> _]|[-> _]]; apply H; apply in_map; apply (incl_dec ["unsigned"; "unrestricted"]%string supported_reserved eq_refl); cbn; auto.
Qed.
(** Words that are built-in types for the crate, but not for the standard. *)
Definition extra_words : list string := ["Error"; "ArrayBufferView"; "BufferSource"]%string.
Lemma type_word_cases x : ~ In x (map str supported_reserved) -> In x (map str type_words) -> In x (map str extra_words).
Proof.
  intros H HI. assert (G : incl type_words (extra_words ++ supported_reserved)) by (apply incl_dec; vm_compute; reflexivity).
  apply in_map_iff in HI as (y & <- & Hy). apply G, in_app_or in Hy as [Hy|Hy]; [apply in_map; auto|]. exfalso. apply H, in_map, Hy.
Qed.
Lemma in_text_dec (x : text) l : In x l \/ ~ In x l.
Proof. destruct (in_dec (list_eq_dec N.eq_dec) x l); auto. Qed.


Definition NonAny_ok (t : NonAnyType) (limit : list string) (i r : list tok) : Prop :=
  wf_NonAnyType t /\ forall bad, incl bad limit -> Conc (show_NonAnyType bad t) i r.
Lemma nil_tail g i r : (forall h r', Conc h r r' -> Conc (g ++ h) i r') -> Conc g i r.
Proof. intros H. specialize (H [] r). rewrite app_nil_r in H. apply H. constructor. Qed.

Lemma null_Conc n i r : D n [Nt "Null"] i r -> exists q, Conc (opt_q q) i r.
Proof. intros H. apply L_Null in H as [q H]. exists q. apply nil_tail. auto. Qed.
Lemma L_IntegerType n i r : D n [Nt "UnsignedIntegerType"] i r -> exists t, forall g r', Conc g r r' -> Conc (show_IntegerType t ++ g) i r'.
Proof.
  assert (G : forall n i r, D n [Nt "IntegerType"] i r -> exists f : option unit -> IntegerType,
    forall u g r', Conc g r r' -> exists h, show_IntegerType (f u) = opt_kw u "unsigned" ++ h /\ Conc (h ++ g) i r').
  { clear. intros n i r H. rule H; walk.
    - exists (fun u => IntegerType_Short (mkShortType u)). intros. eexists. split; [reflexivity|]. cbn. constructor. auto.
    - rule H; walk.
      + exists (fun u => IntegerType_LongLong (mkLongLongType u)). intros. eexists. split; [reflexivity|]. cbn. repeat constructor. auto.
      + exists (fun u => IntegerType_Long (mkLongType u)). intros. eexists. split; [reflexivity|]. cbn. repeat constructor. auto. }
  intros H. rule H; walk; apply G in H as [f Hf].
  - exists (f (Some tt)). intros g r' HC. destruct (Hf (Some tt) g r' HC) as (h & -> & Hh). cbn. constructor. auto.
  - exists (f None). intros g r' HC. destruct (Hf None g r' HC) as (h & -> & Hh). auto.
Qed.
Lemma L_FloatType n i r : D n [Nt "UnrestrictedFloatType"] i r -> exists t, forall g r', Conc g r r' -> Conc (show_FloatingPointType t ++ g) i r'.
Proof.
  assert (G : forall n i r, D n [Nt "FloatType"] i r -> exists f : option unit -> FloatingPointType,
    forall u g r', Conc g r r' -> exists h, show_FloatingPointType (f u) = opt_kw u "unrestricted" ++ h /\ Conc (h ++ g) i r').
  { clear. intros n i r H. rule H; walk.
    - exists (fun u => FloatingPointType_Float (mkFloatType u)). intros. eexists. split; [reflexivity|]. cbn. constructor. auto.
    - exists (fun u => FloatingPointType_Double (mkDoubleType u)). intros. eexists. split; [reflexivity|]. cbn. repeat constructor. auto. }
  intros H. rule H; walk; apply G in H as [f Hf].
  - exists (f (Some tt)). intros g r' HC. destruct (Hf (Some tt) g r' HC) as (h & -> & Hh). cbn. constructor. auto.
  - exists (f None). intros g r' HC. destruct (Hf None g r' HC) as (h & -> & Hh). auto.
Qed.

Lemma NonAny_id x i m q r : ident x i m -> Conc (opt_q q) m r -> exists t, NonAny_ok t clash i r.
Proof.
  intros H HC. destruct (in_text_dec x (map str type_words)) as [HI|HI].
  - destruct H as [->|[-> H]].
    + exists (NonAnyType_Identifier (mkMayBeNull x q)). split; [exact Logic.I|]. intros bad _. cbn. constructor. auto.
    + apply type_word_cases in HI; auto. cbn in HI. destruct HI as [<-|[<-|[<-|[]]]];
        [exists (NonAnyType_Error (mkMayBeNull tt q))|exists (NonAnyType_ArrayBufferView (mkMayBeNull tt q))|
         exists (NonAnyType_BufferSource (mkMayBeNull tt q))]; (split; [exact Logic.I|intros bad _; constructor; auto]).
  - exists (NonAnyType_Identifier (mkMayBeNull x q)). split; [exact Logic.I|]. intros bad Hb. change (Conc (GTy (type_words ++ bad) x :: opt_q q) i r). destruct H as [->|[-> H]]; constructor; auto.
    + rewrite map_app. intros H'. apply in_app_or in H' as [H'|H']; [auto|]. revert H'. eapply not_reserved; eauto.
      intros y Hy. apply clash_reserved, Hb, Hy.
    + apply not_fuses; auto.
Qed.
(** A keyword of the standard that is a name for the crate. *)
Lemma NonAny_word s limit i q r : ~ In s type_words -> ~ In s limit -> s <> "unsigned"%string -> s <> "unrestricted"%string ->
  Conc (opt_q q) i r -> NonAny_ok (NonAnyType_Identifier (mkMayBeNull (str s) q)) limit (TName false (str s) :: i) r.
Proof.
  intros H1 H2 H3 H4 HC. split; [exact Logic.I|]. intros bad Hb. change (Conc (GTy (type_words ++ bad) (str s) :: opt_q q) (TName false (str s) :: i) r). constructor; auto.
  - intros H. apply in_str, in_app_or in H as [H|H]; auto.
  - intros [[E _]|[E _]]; apply str_inj in E; auto.
Qed.

(** ** Lists *)
Lemma join_cons sep {A} (f : A -> list gtok) x l : join sep (map f (x :: l)) = f x ++ flat_map (fun y => sep :: f y) l.
Proof.
  revert x. induction l as [|y l IH]; intros x; [cbn; rewrite app_nil_r; auto|].
  change (join sep (map f (x :: y :: l))) with (f x ++ sep :: join sep (map f (y :: l))). rewrite IH. auto.
Qed.
Lemma L_Identifiers n : forall i r, D n [Nt "Identifiers"] i r -> exists l, Conc (flat_map (fun x => [GP ","; GId [] x]) l) i r.
Proof.
  induction n as [n IH] using lt_wf_ind; intros i r H; rule H; walk; [|exists []; constructor]. apply IH in H as [l H]; [|lia]. exists (x0 :: l). cbn. conc.
Qed.
Lemma L_IdentifierList n i r : D n [Nt "IdentifierList"] i r -> exists l, Conc (join (GP ",") (map (fun x => [GId [] x]) l)) i r.
Proof.
  intros H. rule H; walk. apply L_Identifiers in H as [l H]. exists (x :: l). rewrite join_cons. cbn [app]. conc.
Qed.

(** ** Types, attributes and arguments *)
Record Cl (n : nat) : Prop := {
  Cl_attrs : forall i r, D n [Nt "ExtendedAttributeList"] i r -> exists a, wf_attributes a /\ Conc (show_attributes a) i r;
  Cl_attrs' : forall i r, D n [Nt "ExtendedAttributes"] i r -> exists l, All wf_ExtendedAttribute l /\
    Conc (flat_map (fun y => GP "," :: show_ExtendedAttribute y) l) i r;
  Cl_attr : forall i r, D n [Nt "ExtendedAttribute"] i r -> exists x, wf_ExtendedAttribute x /\ Conc (show_ExtendedAttribute x) i r;
  Cl_args : forall i r, D n [Nt "ArgumentList"] i r -> exists l, All wf_Argument l /\ Conc (join (GP ",") (map show_Argument l)) i r;
  Cl_args' : forall i r, D n [Nt "Arguments"] i r -> exists l, All wf_Argument l /\ Conc (flat_map (fun y => GP "," :: show_Argument y) l) i r;
  Cl_arg : forall i r, D n [Nt "Argument"] i r -> exists x, wf_Argument x /\ Conc (show_Argument x) i r;
  Cl_twea : forall i r, D n [Nt "TypeWithExtendedAttributes"] i r -> exists t, wf_AttributedType t /\ Conc (show_AttributedType [] t) i r;
  Cl_type : forall i r, D n [Nt "Type"] i r -> exists t, wf_Type t /\ forall bad, incl bad clash1 -> Conc (show_Type bad t) i r;
  Cl_dtype : forall i r, D n [Nt "DefinedType"] i r -> exists t, wf_Type t /\ forall bad, incl bad clash -> Conc (show_Type bad t) i r;
  Cl_rtype : forall i r, D n [Nt "ReturnType"] i r -> exists t, wf_ReturnType t /\ forall bad, incl bad clash -> Conc (show_ReturnType bad t) i r;
  Cl_ddist : forall i r, D n [Nt "DefinedDistinguishableType"] i r -> exists t, NonAny_ok t clash i r;
  Cl_dist : forall i r, D n [Nt "DistinguishableType"] i r -> exists t, NonAny_ok t clash1 i r;
  Cl_prom : forall i r, D n [Nt "PromiseType"] i r -> exists t, wf_ReturnType t /\ Conc (show_PromiseType (mkPromiseType t)) i r;
  Cl_union : forall i r, D n [Nt "UnionType"] i r -> exists l, All wf_UnionMemberType l /\
    Conc (GP "(" :: join (GKw "or") (map show_UnionMemberType l) ++ [GP ")"]) i r;
  Cl_um : forall i r, D n [Nt "UnionMemberType"] i r -> exists x, wf_UnionMemberType x /\ Conc (show_UnionMemberType x) i r;
  Cl_ums : forall i r, D n [Nt "UnionMemberTypes"] i r -> exists l, All wf_UnionMemberType l /\
    Conc (flat_map (fun y => GKw "or" :: show_UnionMemberType y) l) i r
}.
Lemma incl_cons' (x : string) l m : In x m -> incl l m -> incl (x :: l) m.
Proof. intros H1 H2 y [<-|H]; auto. Qed.
Lemma clash_any bad : incl bad clash -> incl ("any"%string :: bad) clash.
Proof. apply incl_cons'. cbn. auto. Qed.
Lemma clash1_any bad : incl bad clash1 -> incl ("any"%string :: bad) clash1.
Proof. apply incl_cons'. cbn. auto. Qed.
Lemma clash_nil : incl [] clash. Proof. intros ? []. Qed.
Lemma clash1_nil : incl [] clash1. Proof. intros ? []. Qed.
Lemma NonAny_weaken t i r : NonAny_ok t clash i r -> NonAny_ok t clash1 i r.
Proof. intros [H1 H2]. split; auto. intros bad Hb. apply H2. intros x Hx. apply clash1_clash, Hb, Hx. Qed.

Lemma union_Conc l i m q r : Conc (GP "(" :: join (GKw "or") (map show_UnionMemberType l) ++ [GP ")"]) i m -> Conc (opt_q q) m r ->
  Conc (GP "(" :: join (GKw "or") (map show_UnionMemberType l) ++ GP ")" :: opt_q q) i r.
Proof.
  intros H1 H2. pose proof (Conc_app _ _ _ _ _ H1 H2) as H. rewrite <- app_comm_cons, <- app_assoc in H. exact H.
Qed.
Lemma prim_null s i q r : Conc (opt_q q) i r -> Conc (show_kw_null s (mkMayBeNull tt q)) (TName false (str s) :: i) r.
Proof. intros H. constructor. auto. Qed.
Ltac kwtype C q := exists (C (mkMayBeNull tt q)); (split; [exact Logic.I|intros ? _; apply prim_null; assumption]).

Ltac use L H :=
  lazymatch type of H with Der _ _ ?m _ _ _ =>
    match goal with IH : forall k, k < _ -> Cl k |- _ => apply (L m (IH m ltac:(lia))) in H end
  end.
Lemma Cl_all n : Cl n.
Proof.
  induction n as [n IH] using lt_wf_ind. constructor.
  - intros i r H. rule H; walk; [|exists None; split; [exact Logic.I|constructor]].
    use Cl_attr Hn; destruct Hn as (a & Ha & Ca). use Cl_attrs' Hn0; destruct Hn0 as (l & Hl & Cc).
    exists (Some (a :: l)). split; [split; auto|]. cbn [show_attributes]. rewrite join_cons. conc.
  - intros i r H. rule H; walk; [|exists []; split; [exact Logic.I|constructor]].
    use Cl_attr Hn; destruct Hn as (a & Ha & Ca). use Cl_attrs' H; destruct H as (l & Hl & Cc).
    exists (a :: l). split; [split; auto|]. cbn [flat_map]. conc.
  - intros i r H. rule H; rule H; walk.
    + eexists (ExtendedAttribute_NoArgs _). split; [exact Logic.I|]. cbn. conc.
    + use Cl_args Hn; destruct Hn as (l & Hl & Cc). exists (ExtendedAttribute_ArgList (mkExtendedAttributeArgList x l)). split; [auto|]. cbn [show_ExtendedAttribute]. conc.
    + use Cl_args Hn; destruct Hn as (l & Hl & Cc). eexists (ExtendedAttribute_NamedArgList (mkExtendedAttributeNamedArgList _ _ l)). split; [exact Hl|].
      cbn [show_ExtendedAttribute]. conc.
    + eexists (ExtendedAttribute_Ident (mkExtendedAttributeIdent _ (IdentifierOrString_Identifier _))). split; [exact Logic.I|]. cbn. conc.
    + eexists (ExtendedAttribute_Wildcard (mkExtendedAttributeWildCard _)). split; [exact Logic.I|]. cbn. conc.
    + apply L_IdentifierList in Hn as (l & Cc). eexists (ExtendedAttribute_IdentList (mkExtendedAttributeIdentList _ l)). split; [exact Logic.I|].
      cbn [show_ExtendedAttribute]. conc.
  - intros i r H. rule H; walk; [|exists []; split; [exact Logic.I|constructor]].
    use Cl_arg Hn; destruct Hn as (a & Ha & Ca). use Cl_args' H; destruct H as (l & Hl & Cc).
    exists (a :: l). split; [split; auto|]. rewrite join_cons. conc.
  - intros i r H. rule H; walk; [|exists []; split; [exact Logic.I|constructor]].
    use Cl_arg Hn; destruct Hn as (a & Ha & Ca). use Cl_args' H; destruct H as (l & Hl & Cc).
    exists (a :: l). split; [split; auto|]. cbn [flat_map]. conc.
  - intros i r H. rule H; walk. use Cl_attrs Hn; destruct Hn as (a & Ha & Ca). rule H; walk.
    + use Cl_twea Hn; destruct Hn as (t & Ht & Ct). apply L_ArgumentName in Hn0 as [nm Hnm]. apply L_Default in H as [d Hd].
      exists (Argument_Single (mkSingleArgument a (Some tt) t nm d)). split.
      * cbn. repeat split; auto; try discriminate.
      * cbn [show_Argument unless opt_kw]. change (match a with Some l => _ | None => _ end) with (show_attributes a).
        eapply Conc_app; [eauto|]. cbn [app]. conc.
    + use Cl_type Hn; destruct Hn as (t & Ht & Ct). apply L_ArgumentName in H as [nm Hnm]. rule Hn0; walk.
      * exists (Argument_Variadic (mkVariadicArgument a t nm)). split; [split; auto|]. cbn [show_Argument].
        change (match a with Some l => _ | None => _ end) with (show_attributes a). eapply Conc_app; [eauto|].
        eapply Conc_app; [apply Ct, clash1_nil|]. constructor. apply (Hnm false). constructor.
      * exists (Argument_Single (mkSingleArgument a None (mkAttributedType None t) nm None)). split.
        -- cbn. repeat split; auto; intros H; destruct (H eq_refl).
        -- cbn [show_Argument unless opt_kw show_default show_AttributedType]. change (match a with Some l => _ | None => _ end) with (show_attributes a).
           eapply Conc_app; [eauto|]. cbn [app]. eapply Conc_app; [apply Ct; apply incl_dec; reflexivity|]. apply Hnm. constructor.
  - intros i r H. rule H; walk. use Cl_attrs Hn; destruct Hn as (a & Ha & Ca). use Cl_type H; destruct H as (t & Ht & Ct).
    exists (mkAttributedType a t). split; [split; auto|]. cbn [show_AttributedType]. pose proof (Conc_app _ _ _ _ _ Ca (Ct [] clash1_nil)) as HC.
    destruct a as [l|]; cbn [show_attributes] in HC; auto. rewrite <- app_comm_cons, <- app_assoc in HC. exact HC.
  - intros i r H. rule H; walk.
    + rule H; walk.
      * use Cl_dist H; destruct H as (t & Ht & Ct). exists (Type_Single (SingleType_NonAny t)). split; auto.
        intros bad Hb. apply Ct, clash1_any, Hb.
      * exists (Type_Single SingleType_Any). split; [exact Logic.I|]. intros. repeat constructor.
      * use Cl_prom H; destruct H as (t & Ht & Ct). exists (Type_Single (SingleType_NonAny (NonAnyType_Promise (mkPromiseType t)))). split; auto.
    + use Cl_union Hn; destruct Hn as (l & Hl & Cc). apply null_Conc in H as [q Hq]. exists (Type_Union (mkMayBeNull l q)). split; auto.
      intros. cbn [show_Type]. eapply union_Conc; eauto.
  - intros i r H. rule H; walk.
    + rule H; walk.
      * use Cl_ddist H; destruct H as (t & Ht & Ct). exists (Type_Single (SingleType_NonAny t)). split; auto.
        intros bad Hb. apply Ct, clash_any, Hb.
      * exists (Type_Single SingleType_Any). split; [exact Logic.I|]. intros. repeat constructor.
      * use Cl_prom H; destruct H as (t & Ht & Ct). exists (Type_Single (SingleType_NonAny (NonAnyType_Promise (mkPromiseType t)))). split; auto.
    + use Cl_union Hn; destruct Hn as (l & Hl & Cc). apply null_Conc in H as [q Hq]. exists (Type_Union (mkMayBeNull l q)). split; auto.
      intros. cbn [show_Type]. eapply union_Conc; eauto.
  - intros i r H. rule H; walk.
    + exists ReturnType_Undefined. split; [exact Logic.I|]. intros. repeat constructor.
    + use Cl_dtype H; destruct H as (t & Ht & Ct). exists (ReturnType_Type t). split; auto. intros bad Hb. cbn [show_ReturnType].
      apply Ct. apply incl_cons'; auto. cbn. auto.
  - intros i r H. rule H; walk; try (apply null_Conc in H as [q Hq]).
    + rule Hn; walk.
      * apply L_IntegerType in Hn as [t Ht]. exists (NonAnyType_Integer (mkMayBeNull t q)). split; [exact Logic.I|]. intros bad _. cbn [show_NonAnyType show_null].
        apply Ht. auto.
      * apply L_FloatType in Hn as [t Ht]. exists (NonAnyType_FloatingPoint (mkMayBeNull t q)). split; [exact Logic.I|]. intros bad _. cbn [show_NonAnyType show_null].
        apply Ht. auto.
      * kwtype NonAnyType_Boolean q.
      * kwtype NonAnyType_Byte q.
      * kwtype NonAnyType_Octet q.
      * eexists. apply NonAny_word; [..|exact Hq]; try discriminate; vm_compute; intuition discriminate.
    + rule Hn; walk; [kwtype NonAnyType_ByteString q|kwtype NonAnyType_DOMString q|kwtype NonAnyType_USVString q].
    + eapply NonAny_id; eauto.
    + use Cl_type Hn; destruct Hn as (t & Ht & Ct). exists (NonAnyType_Sequence (mkMayBeNull (mkSequenceType t) q)). split; [exact Ht|].
      intros bad _. cbn [show_NonAnyType show_SequenceType]. pose proof (Ct [] clash1_nil). conc.
    + kwtype NonAnyType_Object q.
    + kwtype NonAnyType_Symbol q.
    + rule Hn; walk; [kwtype NonAnyType_ArrayBuffer q|kwtype NonAnyType_DataView q|kwtype NonAnyType_Int8Array q|kwtype NonAnyType_Int16Array q|
        kwtype NonAnyType_Int32Array q|kwtype NonAnyType_Uint8Array q|kwtype NonAnyType_Uint16Array q|kwtype NonAnyType_Uint32Array q|
        kwtype NonAnyType_Uint8ClampedArray q|kwtype NonAnyType_Float32Array q|kwtype NonAnyType_Float64Array q].
    + use Cl_type Hn; destruct Hn as (t & Ht & Ct). exists (NonAnyType_FrozenArrayType (mkMayBeNull (mkFrozenArrayType t) q)). split; [exact Ht|].
      intros bad _. cbn [show_NonAnyType show_FrozenArrayType]. pose proof (Ct [] clash1_nil). conc.
    + rule Hn; walk. apply L_StringType in Hn0 as (s & -> & Hs). use Cl_type Hn1; destruct Hn1 as (t & Ht & Ct). pose proof (Ct [] clash1_nil).
      destruct Hs as [<-|[<-|[<-|[]]]];
        [exists (NonAnyType_RecordType (mkMayBeNull (mkRecordType RecordKeyType_Byte t) q))|
         exists (NonAnyType_RecordType (mkMayBeNull (mkRecordType RecordKeyType_DOM t) q))|
         exists (NonAnyType_RecordType (mkMayBeNull (mkRecordType RecordKeyType_USV t) q))]; (split; [split; [exact Logic.I|exact Ht]|]);
        intros bad _; cbn [show_NonAnyType show_RecordType show_RecordKeyType]; conc.
  - intros i r H. rule H; walk.
    + use Cl_ddist H; destruct H as (t & Ht). exists t. apply NonAny_weaken. auto.
    + apply null_Conc in H as [q Hq]. eexists. apply NonAny_word; [..|exact Hq]; try discriminate; vm_compute; intuition discriminate.
  - intros i r H. rule H; walk. use Cl_rtype Hn; destruct Hn as (t & Ht & Ct). exists t. split; auto. cbn [show_PromiseType].
    pose proof (Ct [] clash_nil). conc.
  - intros i r H. rule H; walk. use Cl_um Hn; destruct Hn as (a & Ha & Ca). use Cl_um Hn0; destruct Hn0 as (b & Hb & Cb).
    use Cl_ums Hn1; destruct Hn1 as (l & Hl & Cc). exists (a :: b :: l). split; [repeat split; auto|]. rewrite join_cons. cbn [flat_map]. conc.
  - intros i r H. rule H; walk.
    + use Cl_attrs Hn; destruct Hn as (a & Ha & Ca). use Cl_dist H; destruct H as (t & Ht & Ct).
      exists (UnionMemberType_Single (mkAttributedNonAnyType a t)). split; [split; auto|]. cbn [show_UnionMemberType].
      change (match a with Some l => _ | None => _ end) with (show_attributes a). eapply Conc_app; eauto. apply Ct, clash1_nil.
    + use Cl_union Hn; destruct Hn as (l & Hl & Cc). apply null_Conc in H as [q Hq]. exists (UnionMemberType_Union (mkMayBeNull l q)). split; auto.
      cbn [show_UnionMemberType]. eapply union_Conc; eauto.
  - intros i r H. rule H; walk; [|exists []; split; [exact Logic.I|constructor]].
    use Cl_um Hn; destruct Hn as (a & Ha & Ca). use Cl_ums H; destruct H as (l & Hl & Cc).
    exists (a :: l). split; [split; auto|]. cbn [flat_map]. conc.
Qed.

Definition D_attrs n i r (H : D n [Nt "ExtendedAttributeList"] i r) := Cl_attrs n (Cl_all n) i r H.
Definition D_twea n i r (H : D n [Nt "TypeWithExtendedAttributes"] i r) := Cl_twea n (Cl_all n) i r H.
Definition D_type n i r (H : D n [Nt "Type"] i r) := Cl_type n (Cl_all n) i r H.
Definition D_rtype n i r (H : D n [Nt "ReturnType"] i r) := Cl_rtype n (Cl_all n) i r H.
Lemma D_args n i r : D n [Nt "ArgumentList"] i r -> exists l, wf_args l /\ Conc (join (GP ",") (map show_Argument l)) i r.
Proof. apply (Cl_args n (Cl_all n)). Qed.

(** ** Members *)
Lemma kw_const s i : ~ In s const_words -> s <> "unsigned"%string -> s <> "unrestricted"%string ->
  Conc (show_ConstType (ConstType_Identifier (mkMayBeNull (str s) None))) (TName false (str s) :: i) i.
Proof.
  intros H1 H2 H3. change (Conc [GTy const_words (str s)] (TName false (str s) :: i) i). constructor; [..|constructor].
  - intros H. apply in_str in H. auto.
  - intros [[E _]|[E _]]; apply str_inj in E; auto.
Qed.
Lemma const_words_reserved : incl const_words supported_reserved.
Proof. apply incl_dec. vm_compute. reflexivity. Qed.
Lemma L_ConstType n i r : D n [Nt "ConstType"] i r -> exists t, Conc (show_ConstType t) i r.
Proof.
  intros H. rule H; walk.
  - rule H; walk.
    + rule H; walk.
      * apply L_IntegerType in H as [t Ht]. exists (ConstType_Integer (mkMayBeNull t None)). cbn [show_ConstType show_null opt_q]. apply Ht. constructor.
      * apply L_FloatType in H as [t Ht]. exists (ConstType_FloatingPoint (mkMayBeNull t None)). cbn [show_ConstType show_null opt_q]. apply Ht. constructor.
      * exists (ConstType_Boolean (mkMayBeNull tt None)). repeat constructor.
      * exists (ConstType_Byte (mkMayBeNull tt None)). repeat constructor.
      * exists (ConstType_Octet (mkMayBeNull tt None)). repeat constructor.
      * eexists. apply kw_const; try discriminate. vm_compute. intuition discriminate.
    + eexists. apply kw_const; try discriminate. vm_compute. intuition discriminate.
  - exists (ConstType_Identifier (mkMayBeNull x None)). change (Conc [GTy const_words x] i r). destruct Hi as [->|[-> Hi]]; constructor; try constructor.
    + eapply not_reserved; eauto. apply const_words_reserved.
    + apply not_fuses. auto.
Qed.
Lemma L_Const n i r : D n [Nt "Const"] i r -> exists t x v,
  Conc (GKw "const" :: show_ConstType t ++ name_after (const_ends_long t) x :: GP "=" :: show_ConstValue v ++ [GP ";"]) i r.
Proof.
  intros H. rule H; walk. apply L_ConstType in Hn as [t Ht]. apply L_ConstValue in Hn0 as [v Hv]. apply ident_name in Hi. exists t, x1, v. conc.
Qed.
Lemma L_Attribute n i r : D n [Nt "AttributeRest"] i r -> exists t x, wf_AttributedType t /\
  Conc (GKw "attribute" :: show_AttributedType [] t ++ [name_after (attributed_ends_long t) x; GP ";"]) i r.
Proof.
  intros H. rule H; walk. apply D_twea in Hn as (t & Ht & Ct). apply L_AttributeName in Hn0 as [nm Hnm]. exists t, nm. split; auto. conc.
Qed.
Lemma L_args n i m r g : D n [Nt "ArgumentList"] i m -> forall m', m = TPunct ")" :: m' -> exists l, wf_args l /\
  (Conc g m' r -> Conc (show_args l ++ g) (TPunct "(" :: i) r).
Proof. intros H m' ->. apply D_args in H as (l & Hl & Cl). exists l. split; auto. intros. unfold show_args. conc. Qed.
Lemma L_Operation n i r : D n [Nt "RegularOperation"] i r -> exists t x args, wf_ReturnType t /\ wf_args args /\
  forall bad, incl bad clash -> Conc (show_ReturnType bad t ++ show_opt_name (return_ends_long t) x ++ show_args args ++ [GP ";"]) i r.
Proof.
  intros H. rule H; walk. apply D_rtype in Hn as (t & Ht & Ct). rule H; walk. apply L_OptionalOperationName in Hn as [o Ho].
  apply D_args in Hn0 as (l & Hl & Cl). exists t, o, l. split; [auto|]. split; [auto|]. intros bad Hb. eapply Conc_app; [apply Ct; auto|].
  apply Ho. unfold show_args. conc.
Qed.
Lemma L_one n i m : D n [Nt "TypeWithExtendedAttributes"] i m -> forall r, m = TPunct ">" :: r -> exists g, wf_AttributedType g /\
  Conc (show_one g) (TPunct "<" :: i) r.
Proof. intros H r ->. apply D_twea in H as (t & Ht & Ct). exists t. split; auto. unfold show_one. conc. Qed.
Lemma L_pair n m i j k : D n [Nt "TypeWithExtendedAttributes"] i (TPunct "," :: j) -> D m [Nt "TypeWithExtendedAttributes"] j (TPunct ">" :: k) ->
  exists g, wf_pair g /\ Conc (show_pair g) (TPunct "<" :: i) k.
Proof.
  intros H1 H2. apply D_twea in H1 as (t & Ht & Ct). apply D_twea in H2 as (u & Hu & Cu). exists (t, u). split; [split; auto|].
  unfold show_pair. cbn [fst snd]. conc.
Qed.

(** A member behind its attributes. *)
Definition Member {A} (wf : A -> Prop) (show : A -> list gtok) (i r : list tok) : Prop :=
  exists f : option ExtendedAttributeList -> A, forall a, wf_attributes a ->
    wf (f a) /\ exists g, show (f a) = show_attributes a ++ g /\ Conc g i r.
Ltac member e := exists (fun a => e a); intros; split; [try (solve [repeat first [assumption|exact Logic.I|split]])|eexists; split; [reflexivity|]].
Lemma op_bad md sp t o : incl (operation_bad md sp t o) clash.
Proof.
  unfold operation_bad. destruct sp; [intros ? []|]. destruct md; [apply incl_dec; reflexivity|]. destruct o; [apply incl_dec; reflexivity|].
  destruct (plain_identifier t); apply incl_dec; reflexivity.
Qed.
Definition IM := Member wf_InterfaceMember show_InterfaceMember.
Lemma M_Operation md sp n i r i' : D n [Nt "RegularOperation"] i r -> (forall g, Conc g i r -> Conc (show_SS md ++ show_Special sp ++ g) i' r) -> IM i' r.
Proof.
  intros H HC. apply L_Operation in H as (t & x & l & Ht & Hl & Co).
  member (fun a => InterfaceMember_Operation (mkOperationInterfaceMember a md sp t x l)). apply HC. apply Co, op_bad.
Qed.
Lemma M_Attribute md ro n i r i' : D n [Nt "AttributeRest"] i r -> (forall g, Conc g i r -> Conc (show_SIS md ++ opt_kw ro "readonly" ++ g) i' r) -> IM i' r.
Proof.
  intros H HC. apply L_Attribute in H as (t & x & Ht & Ct).
  member (fun a => InterfaceMember_Attribute (mkAttributeInterfaceMember a md ro t x)). apply HC. exact Ct.
Qed.
Lemma M_Const n i r : D n [Nt "Const"] i r -> IM i r.
Proof.
  intros H. apply L_Const in H as (t & x & v & HC). member (fun a => InterfaceMember_Const (mkConstMember a t x v)). exact HC.
Qed.
Lemma M_Maplike ro n i r i' : D n [Nt "MaplikeRest"] i r -> (forall g, Conc g i r -> Conc (opt_kw ro "readonly" ++ g) i' r) -> IM i' r.
Proof.
  intros H HC. rule H; walk. eapply L_pair in Hn as (g & Hg & Cg); [|eassumption].
  member (fun a => InterfaceMember_Maplike (mkMaplikeInterfaceMember a ro g)). apply HC. conc.
Qed.
Lemma M_Setlike ro n i r i' : D n [Nt "SetlikeRest"] i r -> (forall g, Conc g i r -> Conc (opt_kw ro "readonly" ++ g) i' r) -> IM i' r.
Proof.
  intros H HC. rule H; walk. eapply L_one in Hn as (g & Hg & Cg); [|reflexivity].
  member (fun a => InterfaceMember_Setlike (mkSetlikeInterfaceMember a ro g)). apply HC. conc.
Qed.
Lemma M_Stringifier i : IM (TName false (str "stringifier") :: TPunct ";" :: i) i.
Proof. member (fun a => InterfaceMember_Stringifier (mkStringifierMember a)); auto. repeat constructor. Qed.
Ltac kws := intros; cbn [show_SS show_Special show_SIS opt_kw app]; repeat (constructor; fail) || (repeat constructor; auto).

Lemma L_PartialInterfaceMember n i r : D n [Nt "PartialInterfaceMember"] i r -> IM i r.
Proof.
  intros H. rule H; walk.
  - eapply M_Const; eauto.
  - rule H; walk; [eapply (M_Operation None None); eauto|]. rule H; walk. rule Hn; walk.
    + eapply (M_Operation None (Some Special_Getter)); eauto. kws.
    + eapply (M_Operation None (Some Special_Setter)); eauto. kws.
    + eapply (M_Operation None (Some Special_Deleter)); eauto. kws.
  - rule H; walk. rule H; walk.
    + rule Hn; walk; [eapply (M_Attribute (Some SIS_Stringifier) (Some tt))|eapply (M_Attribute (Some SIS_Stringifier) None)]; eauto; kws.
    + eapply (M_Operation (Some SS_Stringifier) None); eauto. kws.
    + apply M_Stringifier.
  - rule H; walk. rule H; walk.
    + rule Hn; walk; [eapply (M_Attribute (Some SIS_Static) (Some tt))|eapply (M_Attribute (Some SIS_Static) None)]; eauto; kws.
    + eapply (M_Operation (Some SS_Static) None); eauto. kws.
  - rule H; walk. rule Hn0; walk.
    + eapply L_pair in Hn as (g & Hg & Cg); [|eassumption].
      member (fun a => InterfaceMember_Iterable (IterableInterfaceMember_Double (mkDoubleTypedIterable a g))). conc.
    + eapply L_one in Hn as (g & Hg & Cg); [|reflexivity].
      member (fun a => InterfaceMember_Iterable (IterableInterfaceMember_Single (mkSingleTypedIterable a g))). conc.
  - rule H; walk. assert (exists o, wf_opt_args o /\ forall g, Conc g (TPunct ";" :: r) r -> Conc (show_opt_args o ++ g) x2 r) as (o & Ho & Co).
    { rule Hn1; walk; [|exists None; split; [exact Logic.I|auto]]. match goal with H : D _ [Nt "ArgumentList"] _ _ |- _ => apply D_args in H as (l & Hl & Cl) end. exists (Some l). split; [exact Hl|].
      intros. cbn [show_opt_args]. unfold show_args. conc. }
    assert (C1 : Conc [GP ";"] (TPunct ";" :: r) r) by repeat constructor. rule Hn0; walk.
    + eapply L_pair in Hn as (g & Hg & Cg); [|eassumption].
      member (fun a => InterfaceMember_AsyncIterable (AsyncIterableInterfaceMember_Double (mkDoubleTypedAsyncIterable a g o))). conc.
    + eapply L_one in Hn as (g & Hg & Cg); [|reflexivity].
      member (fun a => InterfaceMember_AsyncIterable (AsyncIterableInterfaceMember_Single (mkSingleTypedAsyncIterable a g o))). conc.
  - rule H; walk. rule H; walk.
    + eapply (M_Attribute None (Some tt)); eauto. kws.
    + eapply (M_Maplike (Some tt)); eauto. kws.
    + eapply (M_Setlike (Some tt)); eauto. kws.
  - rule H; walk. eapply (M_Attribute None None); eauto.
  - rule H; walk. eapply (M_Maplike None); eauto.
  - rule H; walk. eapply (M_Setlike None); eauto.
  - rule H; walk. eapply (M_Attribute (Some SIS_Inherit) None); eauto. kws.
Qed.
Lemma L_InterfaceMember n i r : D n [Nt "InterfaceMember"] i r -> IM i r.
Proof.
  intros H. rule H; walk; [eapply L_PartialInterfaceMember; eauto|]. rule H; walk. apply D_args in Hn as (l & Hl & Cl).
  member (fun a => InterfaceMember_Constructor (mkConstructorInterfaceMember a l)). unfold show_args. conc.
Qed.
Lemma L_CallbackInterfaceMember n i r : D n [Nt "CallbackInterfaceMember"] i r -> IM i r.
Proof. intros H. rule H; walk; [eapply M_Const; eauto|eapply (M_Operation None None); eauto]. Qed.
Definition XM := Member wf_MixinMember show_MixinMember.
Lemma stringifier_clash (s : option unit) : incl (unless s ["stringifier"%string]) clash.
Proof. destruct s; apply incl_dec; reflexivity. Qed.
Lemma X_Operation s n i r i' : D n [Nt "RegularOperation"] i r -> (forall g, Conc g i r -> Conc (opt_kw s "stringifier" ++ g) i' r) -> XM i' r.
Proof.
  intros H HC. apply L_Operation in H as (t & x & l & Ht & Hl & Co).
  member (fun a => MixinMember_Operation (mkOperationMixinMember a s t x l)). apply HC. apply Co, stringifier_clash.
Qed.
Lemma X_Attribute s ro n i r i' : D n [Nt "AttributeRest"] i r ->
  (forall g, Conc g i r -> Conc (opt_kw s "stringifier" ++ opt_kw ro "readonly" ++ g) i' r) -> XM i' r.
Proof.
  intros H HC. apply L_Attribute in H as (t & x & Ht & Ct).
  member (fun a => MixinMember_Attribute (mkAttributeMixinMember a s ro t x)). apply HC. exact Ct.
Qed.
Lemma L_MixinMember n i r : D n [Nt "MixinMember"] i r -> XM i r.
Proof.
  intros H. rule H; walk.
  - apply L_Const in H as (t & x & v & HC). member (fun a => MixinMember_Const (mkConstMember a t x v)). exact HC.
  - eapply (X_Operation None); eauto.
  - rule H; walk. rule H; walk.
    + rule Hn; walk; [eapply (X_Attribute (Some tt) (Some tt))|eapply (X_Attribute (Some tt) None)]; eauto; kws.
    + eapply (X_Operation (Some tt)); eauto. kws.
    + member (fun a => MixinMember_Stringifier (mkStringifierMember a)); auto. repeat constructor.
  - rule Hn; walk; [eapply (X_Attribute None (Some tt))|eapply (X_Attribute None None)]; eauto; kws.
Qed.
Definition NM := Member wf_NamespaceMember show_NamespaceMember.
Lemma L_NamespaceMember n i r : D n [Nt "NamespaceMember"] i r -> NM i r.
Proof.
  intros H. rule H; walk.
  - apply L_Operation in H as (t & x & l & Ht & Hl & Co). member (fun a => NamespaceMember_Operation (mkOperationNamespaceMember a t x l)). apply Co, clash_nil.
  - apply L_Attribute in H as (t & y & Ht & Ct). member (fun a => NamespaceMember_Attribute (mkAttributeNamespaceMember a t y)). constructor. exact Ct.
  - apply L_Const in H as (t & x & v & HC). member (fun a => NamespaceMember_Const (mkConstNamespaceMember a t x v)). exact HC.
Qed.
Definition DM := Member wf_DictionaryMember show_DictionaryMember.
Lemma L_DictionaryMember n i r : D n [Nt "DictionaryMemberRest"] i r -> DM i r.
Proof.
  intros H. rule H; walk.
  - apply D_type in Hn as (t & Ht & Ct). apply ident_name in Hi. member (fun a => mkDictionaryMember a (Some tt) t x1 None).
    cbn [opt_kw unless show_default app]. constructor. eapply Conc_app; [apply Ct, clash1_nil|]. conc.
  - apply D_type in Hn as (t & Ht & Ct). apply ident_name in Hi. apply L_Default in Hn0 as [d Hd]. member (fun a => mkDictionaryMember a None t x0 d).
    cbn [opt_kw unless app]. eapply Conc_app; [apply Ct, incl_dec; reflexivity|]. conc.
Qed.

Lemma Member_Conc {A} (wf : A -> Prop) show i m r a : Member wf show m r -> wf_attributes a -> Conc (show_attributes a) i m ->
  exists x, wf x /\ Conc (show x) i r.
Proof. intros [f Hf] Ha Ca. destruct (Hf a Ha) as (Hw & g & E & Cg). exists (f a). split; auto. rewrite E. eapply Conc_app; eauto. Qed.
Lemma Members_Conc {A} (wf : A -> Prop) show nt one :
  (forall n i r, D n [Nt nt] i r -> i = r \/ exists k m j, k < n /\ D k [Nt "ExtendedAttributeList"] i m /\ D k [Nt one] m j /\ D k [Nt nt] j r) ->
  (forall n i r, D n [Nt one] i r -> Member wf show i r) ->
  forall n i r, D n [Nt nt] i r -> exists l, All wf l /\ Conc (flat_map show l) i r.
Proof.
  intros Hs H1 n. induction n as [n IH] using lt_wf_ind. intros i r H. apply Hs in H as [->|(k & m & j & Hk & Ha & Hm & H)].
  - exists []. split; [exact Logic.I|constructor].
  - apply D_attrs in Ha as (a & Ha & Ca). apply H1 in Hm. eapply Member_Conc in Hm as (x & Hx & Cx); eauto. eapply IH in H as (l & Hl & Cl); [|exact Hk].
    exists (x :: l). split; [split; auto|]. cbn [flat_map]. eapply Conc_app; eauto.
Qed.
Ltac members := let H := fresh "H" in intros ? ? ? H; rule H; walk; [right|left; reflexivity]; eauto 10.
Lemma L_InterfaceMembers n i r : D n [Nt "InterfaceMembers"] i r -> exists l, All wf_InterfaceMember l /\ Conc (flat_map show_InterfaceMember l) i r.
Proof. apply Members_Conc with (one := "InterfaceMember"%string); [members|apply L_InterfaceMember]. Qed.
Lemma L_PartialInterfaceMembers n i r : D n [Nt "PartialInterfaceMembers"] i r -> exists l, All wf_InterfaceMember l /\ Conc (flat_map show_InterfaceMember l) i r.
Proof. apply Members_Conc with (one := "PartialInterfaceMember"%string); [members|apply L_PartialInterfaceMember]. Qed.
Lemma L_CallbackInterfaceMembers n i r : D n [Nt "CallbackInterfaceMembers"] i r -> exists l, All wf_InterfaceMember l /\ Conc (flat_map show_InterfaceMember l) i r.
Proof. apply Members_Conc with (one := "CallbackInterfaceMember"%string); [members|apply L_CallbackInterfaceMember]. Qed.
Lemma L_MixinMembers n i r : D n [Nt "MixinMembers"] i r -> exists l, All wf_MixinMember l /\ Conc (flat_map show_MixinMember l) i r.
Proof. apply Members_Conc with (one := "MixinMember"%string); [members|apply L_MixinMember]. Qed.
Lemma L_NamespaceMembers n i r : D n [Nt "NamespaceMembers"] i r -> exists l, All wf_NamespaceMember l /\ Conc (flat_map show_NamespaceMember l) i r.
Proof. apply Members_Conc with (one := "NamespaceMember"%string); [members|apply L_NamespaceMember]. Qed.
Lemma D_more n m a i r : D n a i r -> n <= m -> D m a i r.
Proof.
  intros H. revert m. induction H; intros m' Hm; [constructor|constructor; auto|]. destruct m' as [|m']; [lia|].
  econstructor; eauto. apply IHDer1. lia.
Qed.
Lemma L_DictionaryMembers n i r : D n [Nt "DictionaryMembers"] i r -> exists l, All wf_DictionaryMember l /\ Conc (flat_map show_DictionaryMember l) i r.
Proof.
  apply Members_Conc with (one := "DictionaryMemberRest"%string); [|apply L_DictionaryMember].
  intros ? ? ? H; rule H; walk; [right|left; reflexivity]. rule Hn; walk. exists (S n0).
  do 2 eexists. repeat split; [lia|eapply D_more; [eassumption|lia]|eapply D_more; [eassumption|lia]|exact H].
Qed.

(** ** Definitions *)
Lemma L_Inheritance n i r : D n [Nt "Inheritance"] i r -> exists h, Conc (show_inheritance h) i r.
Proof. intros H. rule H; walk; [|exists None; constructor]. eexists (Some (mkInheritance _)). cbn. conc. Qed.
Lemma L_Enum n : forall i r, D n [Nt "EnumValueListComma"] i r ->
  exists l, Conc (flat_map (fun s => [GP ","; GStr s]) l ++ [GOptComma]) i r.
Proof.
  induction n as [n IH] using lt_wf_ind. intros i r H. rule H; walk; [|exists []; apply Conc_nocomma; constructor].
  rule H; walk; [|exists []; apply Conc_comma; constructor]. apply IH in H as [l H]; [|lia]. exists (x0 :: l). cbn [flat_map app]. constructor. constructor. exact H.
Qed.
Definition FM := Member wf_Definition show_Definition.
Lemma L_Namespace n i r : D n [Nt "Namespace"] i r -> exists x l, All wf_NamespaceMember l /\
  Conc (GKw "namespace" :: GId [] x :: show_body show_NamespaceMember l ++ [GP ";"]) i r.
Proof. intros H. rule H; walk. apply L_NamespaceMembers in Hn as (l & Hl & Cl). do 2 eexists. split; [exact Hl|]. unfold show_body. conc. Qed.
Lemma L_MixinRest n i r : D n [Nt "MixinRest"] i r -> exists x l, All wf_MixinMember l /\
  Conc (GKw "mixin" :: GId [] x :: show_body show_MixinMember l ++ [GP ";"]) i r.
Proof. intros H. rule H; walk. apply L_MixinMembers in Hn as (l & Hl & Cl). do 2 eexists. split; [exact Hl|]. unfold show_body. conc. Qed.
Lemma typedef_reserved : incl ["typedef"%string] supported_reserved.
Proof. apply incl_dec. vm_compute. reflexivity. Qed.
Lemma L_Definition n i r : D n [Nt "Definition"] i r -> FM i r.
Proof.
  intros H. rule H; walk.
  - rule H; walk.
    + rule H; walk.
      * rule H; walk. apply D_rtype in Hn as (t & Ht & Ct). apply D_args in Hn0 as (l & Hl & Cl). pose proof (Ct [] clash_nil).
        match goal with Hi : ident ?y _ _ |- _ => member (fun a => Definition_Callback (mkCallbackDefinition a y t l)) end. unfold show_args. conc.
      * apply L_CallbackInterfaceMembers in Hn as (l & Hl & Cl).
        match goal with Hi : ident ?y _ _ |- _ => member (fun a => Definition_CallbackInterface (mkCallbackInterfaceDefinition a y None l)) end. cbn [show_inheritance app]. unfold show_body. conc.
    + rule H; walk.
      * rule H; walk. apply L_Inheritance in Hn as [h Hh]. apply L_InterfaceMembers in Hn0 as (l & Hl & Cl).
        match goal with Hi : ident ?y _ _ |- _ => member (fun a => Definition_Interface (mkInterfaceDefinition a y h l)) end. unfold show_body. conc.
      * apply L_MixinRest in H as (y & l & Hl & Cl). member (fun a => Definition_InterfaceMixin (mkInterfaceMixinDefinition a y l)). constructor. exact Cl.
  - apply L_Namespace in H as (y & l & Hl & Cl). member (fun a => Definition_Namespace (mkNamespaceDefinition a y l)). exact Cl.
  - rule H; walk. rule H; walk.
    + rule H; walk.
      * rule H; walk. apply L_PartialInterfaceMembers in Hn as (l & Hl & Cl).
        match goal with Hi : ident ?y _ _ |- _ => member (fun a => Definition_PartialInterface (mkPartialInterfaceDefinition a y l)) end. unfold show_body. conc.
      * apply L_MixinRest in H as (y & l & Hl & Cl). member (fun a => Definition_PartialInterfaceMixin (mkPartialInterfaceMixinDefinition a y l)).
        constructor. constructor. exact Cl.
    + rule H; walk. apply L_DictionaryMembers in Hn as (l & Hl & Cl).
      match goal with Hi : ident ?y _ _ |- _ => member (fun a => Definition_PartialDictionary (mkPartialDictionaryDefinition a y l)) end. unfold show_body. conc.
    + apply L_Namespace in H as (y & l & Hl & Cl). member (fun a => Definition_PartialNamespace (mkPartialNamespaceDefinition a y l)). constructor. exact Cl.
  - rule H; walk. apply L_Inheritance in Hn as [h Hh]. apply L_DictionaryMembers in Hn0 as (l & Hl & Cl).
    match goal with Hi : ident ?y _ _ |- _ => member (fun a => Definition_Dictionary (mkDictionaryDefinition a y h l)) end. unfold show_body. conc.
  - rule H; walk. rule Hn; walk. apply L_Enum in Hn as [l Cl].
    match goal with Hi : ident ?y _ _ |- _ => match type of Cl with Conc _ ?j _ => match goal with |- context [TPunct "{"] => idtac | _ => idtac end end;
      match goal with E : ident y _ (TPunct "{" :: TStr ?s :: _) |- _ => member (fun a => Definition_Enum (mkEnumDefinition a y (s :: l))) end end.
    + split; [assumption|discriminate].
    + rewrite join_cons. cbn [app]. constructor. eapply ident_Conc; [eassumption|intros ? []|]. constructor. constructor.
      pose proof (Conc_app _ _ _ _ _ Cl (Conc_p "}" [GP ";"] _ _ (Conc_p ";" [] _ _ (Conc_nil r)))) as HC. rewrite <- app_assoc in HC. exact HC.
  - rule H; walk. apply D_twea in Hn as (t & Ht & Ct). apply ident_name in Hi.
    match goal with Hi : is_name ?y _ _ |- _ => member (fun a => Definition_Typedef (mkTypedefDefinition a t y)) end. conc.
  - rule H; walk. match goal with H1 : ident ?y _ (TName _ _ :: _), H2 : ident ?z _ (TPunct _ :: _) |- _ =>
      member (fun a => Definition_IncludesStatement (mkIncludesStatementDefinition a y z)) end.
    + eapply ident_Conc; [eassumption|apply typedef_reserved|]. conc.
Qed.
Lemma L_Definitions n i r : D n [Nt "Definitions"] i r -> exists l, All wf_Definition l /\ Conc (flat_map show_Definition l) i r.
Proof. apply Members_Conc with (one := "Definition"%string); [members|apply L_Definition]. Qed.

Theorem Supported_Sentence ts : Supported ts -> exists defs, wf_Definitions defs /\ Sentence defs ts.
Proof. intros [n H]. apply L_Definitions in H as (l & Hl & Cl). exists l. split; auto. Qed.
Theorem Supported_parse raw ts : Toks raw ts -> Supported ts -> exists defs, parse raw = Parsed defs.
Proof.
  intros HT HS. apply Supported_Sentence in HS as (defs & Hw & Hs). exists defs. apply parse_exact. eauto.
Qed.

(** ** The fragment belongs to the standard *)
Arguments webidl : simpl never.
Arguments webidl_keywords : simpl never.
Notation W := (Der webidl webidl_keywords).
Definition standard_name (x : string) : string :=
  (if existsb (String.eqb x) ["ReturnType"; "DefinedType"] then "Type"
   else if String.eqb x "DefinedSingleType" then "SingleType"
   else if String.eqb x "DefinedDistinguishableType" then "DistinguishableType"
   else if String.eqb x "DefinedPrimitiveType" then "PrimitiveType" else x)%string.
Definition standard_sym (s : sym) : sym := match s with Nt x => Nt (standard_name x) | _ => s end.
Definition Derives (a : list sym) (i r : list tok) : Prop := exists n, W n a i r.
Lemma W_more n m a i r : W n a i r -> n <= m -> W m a i r.
Proof.
  intros H. revert m. induction H; intros m' Hm; [constructor|constructor; auto|]. destruct m' as [|m']; [lia|].
  econstructor; eauto. apply IHDer1. lia.
Qed.
Lemma Derives_nt x rhs a i m r : In rhs (rhs_of webidl x) -> Derives rhs i m -> Derives a m r -> Derives (Nt x :: a) i r.
Proof.
  intros H [n1 H1] [n2 H2]. exists (S (max n1 n2)). econstructor; [exact H|eapply W_more; [exact H1|lia]|eapply W_more; [exact H2|lia]].
Qed.
Lemma Derives_tok s t a i r : matches webidl_keywords s t -> Derives a i r -> Derives (s :: a) (t :: i) r.
Proof. intros H [n H1]. exists n. constructor; auto. Qed.
Lemma Derives_nil r : Derives [] r r.
Proof. exists 0. constructor. Qed.
Lemma Derives_app a b i m r : Derives a i m -> Derives b m r -> Derives (a ++ b) i r.
Proof.
  intros [n H] Hb. induction H as [n q|n s t a i q Hm _ IH|n x rhs a i m q Hi H1 _ _ IH]; [exact Hb|eapply Derives_tok; eauto|].
  eapply Derives_nt; eauto. exists n. exact H1.
Qed.
Lemma Derives_cut x a i r : Derives (x :: a) i r -> exists m, Derives [x] i m /\ Derives a m r.
Proof.
  intros [n H]. inversion H; subst.
  - eexists. split; [eapply Derives_tok; eauto; apply Derives_nil|eexists; eauto].
  - eexists. split; [eapply Derives_nt; [eassumption|eexists; eassumption|apply Derives_nil]|eexists; eassumption].
Qed.
Definition sym_eqb (a b : sym) : bool :=
  match a, b with
  | Kw x, Kw y | Pu x, Pu y | Nt x, Nt y => String.eqb x y
  | Id, Id | Int, Int | Dec, Dec | Str, Str | NegInf, NegInf => true
  | _, _ => false
  end.
Lemma sym_eqb_ok a b : sym_eqb a b = true -> a = b.
Proof. destruct a, b; cbn; try discriminate; auto; intros H; apply String.eqb_eq in H; subst; auto. Qed.
Fixpoint syms_eqb (a b : list sym) : bool :=
  match a, b with [], [] => true | x :: a, y :: b => sym_eqb x y && syms_eqb a b | _, _ => false end.
Lemma syms_eqb_ok a : forall b, syms_eqb a b = true -> a = b.
Proof.
  induction a as [|x a IH]; intros [|y b]; cbn; try discriminate; auto. intros H. apply andb_true_iff in H as [H1 H2].
  apply sym_eqb_ok in H1. apply IH in H2. subst. auto.
Qed.
(** Leftmost rewriting in the standard, with the rules to use given. *)
Fixpoint rewrites (steps : nat) (a b : list sym) : bool :=
  syms_eqb a b ||
  match steps with
  | 0 => false
  | S k =>
      match a, b with
      | s :: a', t :: b' => sym_eqb s t && rewrites k a' b' ||
          match s with Nt x => existsb (fun rhs => rewrites k (rhs ++ a') b) (rhs_of webidl x) | _ => false end
      | Nt x :: a', [] => existsb (fun rhs => rewrites k (rhs ++ a') b) (rhs_of webidl x)
      | _, _ => false
      end
  end.
Lemma rewrites_ok k : forall a b i r, rewrites k a b = true -> Derives b i r -> Derives a i r.
Proof.
  assert (N : forall x rhs a i r, In rhs (rhs_of webidl x) -> Derives (rhs ++ a) i r -> Derives (Nt x :: a) i r).
  { intros x rhs a i r Hi H. assert (exists m, Derives rhs i m /\ Derives a m r) as (m & H1 & H2).
    { clear Hi. revert i H. induction rhs as [|y rhs IH]; intros i H; [exists i; split; [apply Derives_nil|exact H]|].
      apply Derives_cut in H as (m & H1 & H2). apply IH in H2 as (m' & H2 & H3). exists m'. split; auto. apply (Derives_app [y] rhs i m m'); auto. }
    eapply Derives_nt; eauto. }
  induction k as [|k IH]; intros a b i r H HD; cbn in H; apply orb_true_iff in H as [H|H]; try discriminate;
    try (apply syms_eqb_ok in H; subst; exact HD).
  assert (C : forall s t a b, sym_eqb s t && rewrites k a b = true -> Derives (t :: b) i r -> Derives (s :: a) i r).
  { intros s t a' b' H' HD'. apply andb_true_iff in H' as [H1 H2]. apply sym_eqb_ok in H1. subst. apply Derives_cut in HD' as (m & H3 & H4).
    apply (Derives_app [t] a' i m r); eauto. }
  destruct a as [|s a]; [discriminate|]. destruct s; destruct b as [|t b]; try discriminate;
    try (rewrite orb_false_r in H; eapply C; eauto; fail).
  - apply existsb_exists in H as (rhs & H1 & H2). eapply N; eauto.
  - apply orb_true_iff in H as [H|H]; [eapply C; eauto|]. apply existsb_exists in H as (rhs & H1 & H2). eapply N; eauto.
Qed.
Lemma rules_ok : forallb (fun y => forallb (fun rhs => rewrites 12 [Nt (standard_name (fst y))] (map standard_sym rhs)) (snd y)) supported = true.
Proof. vm_compute. reflexivity. Qed.
Lemma rule_ok x rhs : In rhs (rhs_of supported x) -> rewrites 12 [Nt (standard_name x)] (map standard_sym rhs) = true.
Proof.
  intros H. apply in_flat_map in H as (y & H1 & H2). apply filter_In in H1 as [H1 E]. apply String.eqb_eq in E. subst.
  pose proof rules_ok as G. rewrite forallb_forall in G. apply G in H1. rewrite forallb_forall in H1. auto.
Qed.
Lemma matches_more s t : matches supported_reserved s t -> matches webidl_keywords (standard_sym s) t.
Proof.
  destruct s, t as [[] x| | | | |]; lazymatch goal with |- matches _ Id (TName false _) -> _ => intros H HI; apply H | |- _ => cbn [matches standard_sym]; intros H; exact H end.
  change (In x (str "legacycaller" :: map str webidl_keywords)). right. exact HI.
Qed.
Theorem Supported_Standard ts : Supported ts -> Standard ts.
Proof.
  intros [n H]. change (Derives (map standard_sym [Nt "Definitions"]) ts []). remember [Nt "Definitions"] as a eqn:E. clear E.
  remember [] as r. clear Heqr. induction H as [n q|n s t a i q Hm _ IH|n x rhs a i m q Hi H1 IH1 _ IH].
  - apply Derives_nil.
  - cbn [map]. apply Derives_tok; auto. apply matches_more. exact Hm.
  - cbn [map standard_sym]. apply (Derives_app [Nt (standard_name x)] (map standard_sym a) i m q); auto. eapply rewrites_ok; [apply rule_ok; eauto|exact IH1].
Qed.

(** ** Texts *)
Definition reads (g : grammar) (reserved : list string) (n : nat) (s : string) : bool :=
  match lex (str s) with (t :: ts, []) => accepts g reserved n (t :: ts) | _ => false end.
Lemma reads_ok g res n s : reads g res n s = true -> exists ts, Toks (str s) ts /\ Der g res n [Nt "Definitions"] ts [].
Proof.
  unfold reads. intros H. destruct (lex (str s)) as [[|t ts] [|]] eqn:E; try discriminate. exists (t :: ts). split.
  - apply Toks_lex. split; auto. discriminate.
  - apply accepts_ok. exact H.
Qed.
(** Texts of the standard that the crate does not accept, one for each restriction of [Supported]. *)
Definition not_accepted : list string :=
  ["typedef sequence<[A] long> b;"; "typedef FrozenArray<[A] long> b;"; "typedef record<DOMString, [A] long> b;";
   "dictionary A { required [B] long c; };"; "interface A { attribute ObservableArray<long> b; };";
   "callback A = undefined? ();"; "interface A { undefined? b(); };"; "interface A { legacycaller(); };"]%string.
Lemma not_accepted_standard : forallb (reads webidl webidl_keywords 40) not_accepted = true.
Proof. vm_compute. reflexivity. Qed.
Definition panics (s : string) : bool := match parse (str s) with Panicked => true | _ => false end.
Lemma not_accepted_panics : forallb panics not_accepted = true.
Proof. vm_compute. reflexivity. Qed.
Theorem Standard_refuted : Forall (fun s => exists ts, Toks (str s) ts /\ Standard ts /\ parse (str s) = Panicked) not_accepted.
Proof.
  apply Forall_forall. intros s Hs. pose proof not_accepted_standard as H1. pose proof not_accepted_panics as H2.
  rewrite forallb_forall in H1, H2. apply H1 in Hs as H3. apply H2 in Hs as H4. apply reads_ok in H3 as (ts & H5 & H6). exists ts. split; [auto|]. split.
  - eexists. exact H6.
  - unfold panics in H4. destruct (parse (str s)); auto; discriminate.
Qed.
Lemma reads_Supported n s : reads supported supported_reserved n s = true -> exists ts, Toks (str s) ts /\ Supported ts.
Proof. intros H. apply reads_ok in H as (ts & H1 & H2). exists ts. split; auto. eexists. exact H2. Qed.
Definition sample : string :=
  "[Exposed=(Window,Worker)] interface _partial : Node { constructor(optional [Clamp] long readonly = -0x1F, any... rest);
     const unsigned long long A = 1; stringifier readonly attribute USVString? async; static Promise<undefined> f([B] (long? or sequence<any>) x);
     async iterable<[C] DOMString, record<USVString, Error>>(); readonly maplike<object, symbol>; getter undefined (undefined? includes);
     inherit attribute unrestricted double d; };
   partial interface mixin M { stringifier; bigint includes(); };  dictionary D { required any a; bigint? b = null; };
   enum E { ""a"", ""b"", }; callback C = undefined (); callback interface I { const Error _const = -Infinity; };
   partial namespace N { readonly attribute FrozenArray<undefined> legacy; }; Foo includes Bar;"%string.
Lemma sample_supported : exists ts, Toks (str sample) ts /\ Supported ts.
Proof. apply (reads_Supported 40). vm_compute. reflexivity. Qed.
