(** * Single definitions and members: the exact texts, and how the kind of a definition is decided *)
From Coq Require Import String Ascii NArith Arith Bool List Lia.
From Verif Require Import Nom Lex Ast Grammar Spec LexFacts NumFacts TokFacts RunFacts Shapes TermFacts Api ApiFacts LexProps
  Tok TokRun TokSound TokComplete TokMembers Shows Exact Print.
Import ListNotations.
Open Scope list_scope.

(** ** Exact texts of items that end with a semicolon *)
Section Item.
  Variable A : Type.
  Variable p : pexp A.
  Variable show : A -> list gtok.
  Variable w : A -> Prop.
  Variable c : bool.
  Hypothesis HI : Shape false p c.
  Hypothesis HP : Plain p.
  Hypothesis Hend : forall a, exists g, show a = g ++ [GP ";"].
  Hypothesis Hs : forall n i r a, krun n A p i = Ok r a -> Conc (show a) i r /\ w a.
  Hypothesis Hc : forall a i r, Conc (show a) i r -> w a -> Ev p i (Some (a, r)).

  Theorem item_exact s rest a :
    parse_as p s = Ok rest a <-> exists ts, Ats ts s rest /\ Conc (show a) ts [] /\ w a.
  Proof.
    split.
    - intros E. destruct (tokenize s) as (ts & r0 & H0 & HR).
      destruct (text_to_toks _ _ _ _ _ _ _ _ HI HP H0 HR E) as (ts' & HE & HS). apply Ev_Some in HE as [n HE].
      destruct (Hs _ _ _ _ HE) as [HC HW]. apply Conc_restrict in HC as (us & E' & HC).
      destruct HS as [[_ K]|(_ & _ & _ & _ & used & K & HA)].
      + exfalso. assert (us = []) as -> by (destruct us; auto; apply (f_equal (@length tok)) in E'; rewrite K in E'; cbn in E';
          rewrite app_length in E'; lia).
        destruct (Hend a) as [g Eg]. rewrite Eg in HC. apply (Conc_semi_nonempty _ _ _ HC). reflexivity.
      + exists us. assert (us = used) as -> by (rewrite E' in K; apply app_inv_tail in K; auto). auto.
    - intros (ts & HA & HC & HW). destruct (tokenize s) as (ts0 & r0 & H0 & HR). destruct (Hend a) as [g Eg].
      assert (Hn : ts <> []) by (rewrite Eg in HC; apply (Conc_semi_nonempty _ _ _ HC)).
      destruct (Rd_Ats _ H0 _ _ _ _ HR HA Hn) as (us & -> & HL & HB).
      assert (HC' : Conc (show a) (ts ++ us) us). { rewrite Eg in *. apply (Conc_extend g us _ [] HC). }
      destruct (toks_to_text _ _ _ _ _ _ _ _ HI HP H0 HR (Hc _ _ _ HC' HW)) as (r & E & HSt). rewrite E. f_equal.
      destruct HSt as [[_ K]|(_ & _ & _ & _ & used & K & HA')].
      + exfalso. apply Hn. apply (app_inv_tail us). symmetry. exact K.
      + apply app_inv_tail in K. subst used. eapply Ats_det; eauto.
  Qed.
End Item.

Lemma line_end {A} (show : A -> list gtok) a : Line (fun _ => True) (show a) -> exists g, show a = g ++ [GP ";"].
Proof. intros (h & -> & _). eauto. Qed.
Theorem InterfaceMember_exact s rest m : parse_as e_InterfaceMember s = Ok rest m <->
  exists ts, Ats ts s rest /\ Conc (show_InterfaceMember m) ts [] /\ wf_InterfaceMember m.
Proof.
  eapply item_exact.
  - apply (Impl_Shape _ _ _ I_InterfaceMember).
  - exact Plain_e_InterfaceMembers.
  - intros a. apply line_end, L_InterfaceMember; auto.
  - apply S_InterfaceMember.
  - apply C_InterfaceMember.
Qed.
Theorem MixinMember_exact s rest m : parse_as e_MixinMember s = Ok rest m <->
  exists ts, Ats ts s rest /\ Conc (show_MixinMember m) ts [] /\ wf_MixinMember m.
Proof.
  eapply item_exact.
  - apply (Impl_Shape _ _ _ I_MixinMember).
  - exact Plain_e_MixinMembers.
  - intros a. apply line_end, L_MixinMember; auto.
  - apply S_MixinMember.
  - apply C_MixinMember.
Qed.
Theorem NamespaceMember_exact s rest m : parse_as e_NamespaceMember s = Ok rest m <->
  exists ts, Ats ts s rest /\ Conc (show_NamespaceMember m) ts [] /\ wf_NamespaceMember m.
Proof.
  eapply item_exact.
  - apply (Impl_Shape _ _ _ I_NamespaceMember).
  - exact Plain_e_NamespaceMembers.
  - intros a. apply line_end, L_NamespaceMember; auto.
  - apply S_NamespaceMember.
  - apply C_NamespaceMember.
Qed.
Theorem DictionaryMember_exact s rest m : parse_as e_DictionaryMember s = Ok rest m <->
  exists ts, Ats ts s rest /\ Conc (show_DictionaryMember m) ts [] /\ wf_DictionaryMember m.
Proof.
  eapply item_exact.
  - apply (Impl_Shape _ _ _ I_DictionaryMember).
  - exact Plain_e_DictionaryMembers.
  - intros a. apply line_end, L_DictionaryMember; auto.
  - apply S_DictionaryMember.
  - apply C_DictionaryMember.
Qed.
Theorem Definition_exact s rest d : parse_as e_Definition s = Ok rest d <->
  exists ts, Ats ts s rest /\ Conc (show_Definition d) ts [] /\ wf_Definition d.
Proof.
  eapply item_exact.
  - apply (Impl_Shape _ _ _ I_Definition).
  - exact e_Definition_Plain.
  - intros a. destruct (show_end [a]) as [g E]; [discriminate|]. exists g. rewrite <- E. cbn. symmetry. apply app_nil_r.
  - apply S_Definition.
  - apply C_Definition.
Qed.
(** Any list of definitions, with whatever follows. *)
Lemma Ats_cut ts us : forall i r, Ats (ts ++ us) i r -> exists j, Ats ts i j /\ Ats us j r.
Proof.
  induction ts as [|t ts IH]; cbn; intros i r H; [eauto|]. destruct H as (k & H1 & H2).
  apply IH in H2 as (j & H2 & H3). eauto.
Qed.
Lemma Chain_exact s rest defs : Chain (parse_as e_Definition) s defs rest <->
  exists ts, Ats ts s rest /\ Conc (show_Definitions defs) ts [] /\ wf_Definitions defs.
Proof.
  revert s. induction defs as [|d l IH]; intros s.
    - split.
      + intros H. inversion H; subst. exists []. cbn. repeat split; constructor.
      + intros (ts & HA & HC & _). inversion HC; subst. cbn in HA. subst. constructor.
    - split.
      + intros H. inversion H as [|? ? ? ? ? H1 H2]; subst. apply Definition_exact in H1 as (ts & H1 & H3 & H4).
        apply IH in H2 as (us & H2 & H5 & H6). exists (ts ++ us). split; [eapply Ats_app; eauto|]. split; [|split; auto].
        destruct (show_end [d]) as [g E]; [discriminate|]. cbn in E. rewrite app_nil_r in E.
        cbn. eapply Conc_app; [|exact H5]. rewrite E in *. apply (Conc_extend g us _ [] H3).
      + intros (ts & HA & HC & HW1 & HW2). cbn in HC. apply Conc_split in HC as (us & H1 & H2).
        apply Conc_restrict in H1 as (vs & -> & H1). apply Ats_cut in HA as (j & HA & HA').
        econstructor; [apply Definition_exact; eauto|]. apply IH. eauto.
Qed.
Theorem Definitions_exact s rest defs : parse_as e_Definitions s = Ok rest defs <->
  (exists ts, Ats ts s rest /\ Conc (show_Definitions defs) ts [] /\ wf_Definitions defs) /\ Fails (parse_as e_Definition) rest.
Proof.
  destruct (Vec_spec _ _ s I_Definition) as (l & r & E & HC & HF). rewrite <- Chain_exact.
  change (parse_as e_Definitions s = Ok r l) in E. split.
  - intros E'. rewrite E in E'. injection E' as <- <-. auto.
  - intros [HC' HF']. rewrite E. clear - HC HF HC' HF'.
    assert (l = defs /\ r = rest) as [-> ->]; auto. revert s defs HC HC'. induction l as [|a l IH]; intros s defs HC HC'.
    + inversion HC; subst. inversion HC' as [|? ? ? ? ? H1 H2]; subst; auto. destruct HF as (? & ? & HF). congruence.
    + inversion HC as [|? ? ? ? ? H1 H2]; subst. inversion HC' as [|? ? ? ? ? H3 H4]; subst.
      * destruct HF' as (? & ? & HF'). congruence.
      * rewrite H1 in H3. injection H3 as <- <-. destruct (IH _ _ H2 H4). subst. auto.
Qed.

(** ** The kinds of definitions *)
Inductive dkind : Set :=
| KCallback | KCallbackInterface | KInterface | KInterfaceMixin | KNamespace | KDictionary | KPartialInterface
| KPartialInterfaceMixin | KPartialDictionary | KPartialNamespace | KEnum | KTypedef | KIncludes | KImplements.

(** The variants of [Definition] in src/lib.rs, their contents and the parsers of their contents. *)
Definition def_type (k : dkind) : Type :=
  match k with
  | KCallback => CallbackDefinition | KCallbackInterface => CallbackInterfaceDefinition
  | KInterface => InterfaceDefinition | KInterfaceMixin => InterfaceMixinDefinition
  | KNamespace => NamespaceDefinition | KDictionary => DictionaryDefinition
  | KPartialInterface => PartialInterfaceDefinition | KPartialInterfaceMixin => PartialInterfaceMixinDefinition
  | KPartialDictionary => PartialDictionaryDefinition | KPartialNamespace => PartialNamespaceDefinition
  | KEnum => EnumDefinition | KTypedef => TypedefDefinition
  | KIncludes => IncludesStatementDefinition | KImplements => ImplementsDefinition
  end.
Definition def_parser (k : dkind) : pexp (def_type k) :=
  match k with
  | KCallback => e_CallbackDefinition | KCallbackInterface => e_CallbackInterfaceDefinition
  | KInterface => e_InterfaceDefinition | KInterfaceMixin => e_InterfaceMixinDefinition
  | KNamespace => e_NamespaceDefinition | KDictionary => e_DictionaryDefinition
  | KPartialInterface => e_PartialInterfaceDefinition | KPartialInterfaceMixin => e_PartialInterfaceMixinDefinition
  | KPartialDictionary => e_PartialDictionaryDefinition | KPartialNamespace => e_PartialNamespaceDefinition
  | KEnum => e_EnumDefinition | KTypedef => e_TypedefDefinition
  | KIncludes => e_IncludesStatementDefinition | KImplements => e_ImplementsDefinition
  end.
Definition def_variant (k : dkind) : def_type k -> Definition_ :=
  match k with
  | KCallback => Definition_Callback | KCallbackInterface => Definition_CallbackInterface
  | KInterface => Definition_Interface | KInterfaceMixin => Definition_InterfaceMixin
  | KNamespace => Definition_Namespace | KDictionary => Definition_Dictionary
  | KPartialInterface => Definition_PartialInterface | KPartialInterfaceMixin => Definition_PartialInterfaceMixin
  | KPartialDictionary => Definition_PartialDictionary | KPartialNamespace => Definition_PartialNamespace
  | KEnum => Definition_Enum | KTypedef => Definition_Typedef
  | KIncludes => Definition_IncludesStatement | KImplements => Definition_Implements
  end.

(** The tokens after the attributes that show the kind. *)
Definition lead (k : dkind) (ts : list tok) : Prop :=
  match k with
  | KCallback => exists e n, ts = [word "callback"; TName e n; TPunct "="]
  | KCallbackInterface => exists e n, ts = [word "callback"; word "interface"; TName e n]
  | KInterface => exists e n c, ts = [word "interface"; TName e n; TPunct c] /\ (c = ":" \/ c = "{")%string
  | KInterfaceMixin => exists e n, ts = [word "interface"; word "mixin"; TName e n]
  | KNamespace => exists e n, ts = [word "namespace"; TName e n; TPunct "{"]
  | KDictionary => exists e n c, ts = [word "dictionary"; TName e n; TPunct c] /\ (c = ":" \/ c = "{")%string
  | KPartialInterface => exists e n, ts = [word "partial"; word "interface"; TName e n; TPunct "{"]
  | KPartialInterfaceMixin => exists e n, ts = [word "partial"; word "interface"; word "mixin"; TName e n]
  | KPartialDictionary => exists e n, ts = [word "partial"; word "dictionary"; TName e n]
  | KPartialNamespace => exists e n, ts = [word "partial"; word "namespace"; TName e n]
  | KEnum => exists e n, ts = [word "enum"; TName e n; TPunct "{"]
  | KTypedef => ts = [word "typedef"]
  | KIncludes => exists e n e' n', ts = [TName e n; word "includes"; TName e' n'; TPunct ";"]
  | KImplements => exists e n e' n', ts = [TName e n; word "implements"; TName e' n'; TPunct ";"]
  end.
(** [typedef includes X;] can be read in two ways. *)
Definition typedef_clash (k k' : dkind) : Prop := k = KTypedef /\ (k' = KIncludes \/ k' = KImplements).

Lemma lead_exclusive k k' l l' r r' : lead k l -> lead k' l' -> l ++ r = l' ++ r' ->
  k = k' \/ typedef_clash k k' \/ typedef_clash k' k.
Proof.
  unfold typedef_clash. intros H H' E.
  destruct k, k'; auto; exfalso; cbn in H, H';
    repeat match goal with K : exists _, _ |- _ => destruct K end; repeat match goal with K : _ /\ _ |- _ => destruct K end;
    subst; cbn in E; injection E; intros; subst; try discriminate;
    repeat match goal with K : _ \/ _ |- _ => destruct K end; discriminate.
Qed.

Lemma kr_opt_inheritance_lead n i r o j (A : Type) (q : pexp A) l :
  krun n _ (e_Option e_Inheritance) i = Ok r o -> krun n _ (e_Braced q) r = Ok j l ->
  exists c i', i = TPunct c :: i' /\ (c = ":" \/ c = "{")%string.
Proof.
  intros H H'. unfold e_Braced in H'. kinv H'. subst. unfold e_Option in H. apply kr_opt in H. destruct o as [o|].
  - unfold e_Inheritance in H. kinv H. subst. eauto.
  - destruct H as [<- _]. eauto.
Qed.
Lemma kr_lead n k i r x : krun n _ (def_parser k) i = Ok r x -> exists j a l j',
  krun n _ e_attributes i = Ok j a /\ lead k l /\ j = l ++ j'.
Proof.
  Ltac by_lead H := kinv H; subst;
    match goal with K : krun _ _ e_attributes _ = Ok ?j ?a |- _ => exists j, a end;
    try match goal with K : krun _ _ (e_Option e_Inheritance) _ = Ok _ _ |- _ =>
      eapply kr_opt_inheritance_lead in K as (? & ? & -> & ?); [|eassumption] end;
    try match goal with K : krun _ _ (e_Braced _) _ = Ok _ _ |- _ => unfold e_Braced in K; kinv K; subst end.
  destruct k; cbn [def_parser def_type lead]; intros H.
  - unfold e_CallbackDefinition in H. by_lead H. eexists [_; _; _], _. split; [eassumption|]. split; [eexists _, _|]; reflexivity.
  - unfold e_CallbackInterfaceDefinition in H. by_lead H. eexists [_; _; _], _. split; [eassumption|]. split; [eexists _, _|]; reflexivity.
  - unfold e_InterfaceDefinition in H. by_lead H. eexists [_; _; _], _. split; [eassumption|].
    split; [|reflexivity]. eexists _, _, _; split; [reflexivity|assumption].
  - unfold e_InterfaceMixinDefinition in H. by_lead H. eexists [_; _; _], _. split; [eassumption|]. split; [eexists _, _|]; reflexivity.
  - unfold e_NamespaceDefinition in H. by_lead H. eexists [_; _; _], _. split; [eassumption|]. split; [eexists _, _|]; reflexivity.
  - unfold e_DictionaryDefinition in H. by_lead H. eexists [_; _; _], _. split; [eassumption|].
    split; [|reflexivity]. eexists _, _, _; split; [reflexivity|assumption].
  - unfold e_PartialInterfaceDefinition in H. by_lead H. eexists [_; _; _; _], _. split; [eassumption|]. split; [eexists _, _|]; reflexivity.
  - unfold e_PartialInterfaceMixinDefinition in H. by_lead H. eexists [_; _; _; _], _. split; [eassumption|]. split; [eexists _, _|]; reflexivity.
  - unfold e_PartialDictionaryDefinition in H. by_lead H. eexists [_; _; _], _. split; [eassumption|]. split; [eexists _, _|]; reflexivity.
  - unfold e_PartialNamespaceDefinition in H. by_lead H. eexists [_; _; _], _. split; [eassumption|]. split; [eexists _, _|]; reflexivity.
  - unfold e_EnumDefinition in H. by_lead H. eexists [_; _; _], _. split; [eassumption|]. split; [eexists _, _|]; reflexivity.
  - unfold e_TypedefDefinition in H. by_lead H. eexists [_], _. split; [eassumption|]. split; reflexivity.
  - unfold e_IncludesStatementDefinition in H. by_lead H. eexists [_; _; _; _], _. split; [eassumption|]. split; [eexists _, _, _, _|]; reflexivity.
  - unfold e_ImplementsDefinition in H. by_lead H. eexists [_; _; _; _], _. split; [eassumption|]. split; [eexists _, _, _, _|]; reflexivity.
Qed.

Lemma def_Impl k : Impl true _ (def_parser k).
Proof. destruct k; constructor. Qed.
Lemma def_Plain k : Plain (def_parser k).
Proof.
  pose proof e_Definition_Plain as H. unfold e_Definition in H. cbn [PAlt] in H.
  assert (K : forall A B (f : A -> B) (p : pexp A) q, Plain (POr (PMap f p) q) -> Plain p /\ Plain q).
  { intros A B f p q K. cbn [Plain PMap] in K. tauto. }
  do 14 (apply K in H; let H1 := fresh "P" in destruct H as [H1 H]). destruct k; assumption.
Qed.
Lemma attributes_Shape : Shape false e_attributes false.
Proof. apply (Impl_Shape _ _ _ (I_Option _ _ _ I_ExtendedAttributeList)). Qed.

Theorem def_lead k s rest x : parse_as (def_parser k) s = Ok rest x ->
  exists s1 a ts s2, parse_as e_attributes s = Ok s1 a /\ lead k ts /\ Ats ts s1 s2.
Proof.
  intros E. destruct (tokenize s) as (ts & r0 & H0 & HR).
  destruct (text_to_toks _ _ _ _ _ _ _ _ (Impl_Shape _ _ _ (def_Impl k)) (def_Plain k) H0 HR E) as (ts' & HE & _).
  apply Ev_Some in HE as [n HE]. apply kr_lead in HE as (j & a & l & j' & Ha & Hl & ->).
  destruct (toks_to_text _ _ _ _ _ _ (l ++ j') a attributes_Shape Plain_e_attributes H0 HR) as (s1 & E1 & HS);
    [apply Ev_Some; eauto|].
  assert (HR1 : Rd r0 s1 (l ++ j')).
  { destruct HS as [[-> <-]|(_ & HL & _)]; auto. apply Rd_Lay; auto. }
  assert (Hn : l <> []).
  { intros ->. destruct k; cbn in Hl; repeat match goal with K : exists _, _ |- _ => destruct K | K : _ /\ _ |- _ => destruct K end;
      discriminate. }
  destruct (Rd_app _ H0 _ _ _ HR1 Hn) as (s2 & HA & _). exists s1, a, l, s2. auto.
Qed.
Theorem def_exclusive k k' s r r' x x' : parse_as (def_parser k) s = Ok r x -> parse_as (def_parser k') s = Ok r' x' ->
  k = k' \/ typedef_clash k k' \/ typedef_clash k' k.
Proof.
  intros E E'. destruct (tokenize s) as (ts & r0 & H0 & HR).
  destruct (text_to_toks _ _ _ _ _ _ _ _ (Impl_Shape _ _ _ (def_Impl k)) (def_Plain k) H0 HR E) as (ts1 & HE & _).
  destruct (text_to_toks _ _ _ _ _ _ _ _ (Impl_Shape _ _ _ (def_Impl k')) (def_Plain k') H0 HR E') as (ts2 & HE' & _).
  apply Ev_Some in HE as [n HE]. apply kr_lead in HE as (j & a & l & j' & Ha & Hl & ->).
  apply Ev_Some in HE' as [n' HE']. apply kr_lead in HE' as (i & a' & l' & i' & Ha' & Hl' & ->).
  assert (K : Some (a, l ++ j') = Some (a', l' ++ i')) by (eapply Ev_det; apply Ev_Some; eauto).
  injection K as _ K. eapply lead_exclusive; eauto.
Qed.
(** The definition parser picks an alternative. *)
Lemma or_ok n A B (f : A -> B) (p : pexp A) q i r v : trun n _ (POr (PMap f p) q) i = Ok r v ->
  (exists a, v = f a /\ trun n _ p i = Ok r a) \/ (Fails (trun n _ p) i /\ trun n _ q i = Ok r v).
Proof.
  rewrite run_or. unfold PMap, alt_or, Fails. rewrite run_bind. unfold bind.
  destruct (trun n _ p i) as [r1 a1|[| |]|]; try discriminate; eauto 6.
  rewrite run_ret. unfold ret. intros E. injection E as <- <-. eauto.
Qed.
Lemma or_no n A B (f : A -> B) (p : pexp A) q i : Fails (trun n _ (POr (PMap f p) q)) i ->
  Fails (trun n _ p) i /\ Fails (trun n _ q) i.
Proof.
  unfold Fails. rewrite run_or. unfold PMap, alt_or. rewrite run_bind. unfold bind. intros (e & k & H).
  destruct (trun n _ p i) as [r1 a1|[| |]|]; try discriminate; eauto 6. rewrite run_ret in H. discriminate.
Qed.
Theorem Definition_kind s rest d : parse_as e_Definition s = Ok rest d ->
  exists k x, d = def_variant k x /\ parse_as (def_parser k) s = Ok rest x /\
    (k = KIncludes \/ k = KImplements -> Fails (parse_as e_TypedefDefinition) s).
Proof.
  unfold parse_as, e_Definition. cbn [PAlt]. intros H.
  Ltac next H k := let F := fresh "F" in apply or_ok in H as [(x & E & H)|[F H]];
    [exists k, x; split; [exact E|split; [exact H|]]; try (intros [K|K]; discriminate); auto|].
  next H KCallback. next H KCallbackInterface. next H KInterface. next H KInterfaceMixin. next H KNamespace. next H KDictionary.
  next H KPartialInterface. next H KPartialInterfaceMixin. next H KPartialDictionary. next H KPartialNamespace.
  next H KEnum. next H KTypedef. next H KIncludes. next H KImplements. discriminate.
Qed.
Theorem Definition_takes k s rest x : parse_as (def_parser k) s = Ok rest x ->
  parse_as e_Definition s = Ok rest (def_variant k x) \/
  (typedef_clash KTypedef k /\ exists rest' y, parse_as e_Definition s = Ok rest' (Definition_Typedef y) /\
    parse_as e_TypedefDefinition s = Ok rest' y).
Proof.
  intros E. destruct (parse_cases _ _ _ s I_Definition) as [(r & d & E')|HF].
  - destruct (Definition_kind _ _ _ E') as (k' & x' & -> & Ek & Hk).
    destruct (def_exclusive _ _ _ _ _ _ _ E Ek) as [<-|[[-> K]|[-> K]]].
    + left. rewrite E in Ek. injection Ek as <- <-. exact E'.
    + exfalso. destruct (Hk K) as (? & ? & F). cbn [def_parser def_type] in E. congruence.
    + right. split; [split; auto|]. exists r, x'. auto.
  - exfalso. unfold parse_as, e_Definition in HF. cbn [PAlt] in HF.
    unfold parse_as in E. remember (S (length s)) as N.
    Ltac nxt HF := let F := fresh "F" in apply or_no in HF as [F HF].
    do 14 nxt HF. clear HF. destruct k; cbn [def_parser def_type] in E;
      match goal with F : Fails (trun _ _ ?p) _ |- _ => match type of E with trun _ _ p _ = _ => destruct F as (? & ? & F); congruence end end.
Qed.
Theorem Definition_kind_lead s rest d : parse_as e_Definition s = Ok rest d -> exists k x,
  d = def_variant k x /\ parse_as (def_parser k) s = Ok rest x /\
  exists s1 a ts s2, parse_as e_attributes s = Ok s1 a /\ lead k ts /\ Ats ts s1 s2.
Proof.
  intros H. apply Definition_kind in H as (k & x & -> & H & _). exists k, x. repeat split; auto. eapply def_lead; eauto.
Qed.
Lemma Ats_prefix ts : forall ts' s s1 s2, Ats ts s s1 -> Ats ts' s s2 -> length ts <= length ts' -> exists u, ts' = ts ++ u.
Proof.
  induction ts as [|t ts IH]; intros ts' s s1 s2 H H' Hl; [exists ts'; auto|]. destruct ts' as [|t' ts']; cbn in Hl; [lia|].
  destruct H as (j & H1 & H2), H' as (j' & H1' & H2'). destruct (At_det _ _ _ _ _ H1 H1') as [-> ->].
  destruct (IH ts' j' _ _ H2 H2' ltac:(lia)) as (u & ->). exists u. auto.
Qed.
Theorem lead_decides k k' ts ts' s s1 s2 : lead k ts -> lead k' ts' -> Ats ts s s1 -> Ats ts' s s2 ->
  k = k' \/ typedef_clash k k' \/ typedef_clash k' k.
Proof.
  intros H H' HA HA'. destruct (Nat.le_ge_cases (length ts) (length ts')) as [Hl|Hl].
  - destruct (Ats_prefix _ _ _ _ _ HA HA' Hl) as (u & E). eapply lead_exclusive with (r := u) (r' := []); eauto. rewrite app_nil_r. auto.
  - destruct (Ats_prefix _ _ _ _ _ HA' HA Hl) as (u & E). eapply lead_exclusive with (r := []) (r' := u); eauto. rewrite app_nil_r. auto.
Qed.
