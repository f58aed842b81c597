(** * Types, arguments and attributes: the exact texts *)
From Coq Require Import String Ascii NArith Arith Bool List Lia.
From Verif Require Import Nom Lex Ast Grammar Spec LexFacts NumFacts TokFacts RunFacts Shapes TermFacts Api ApiFacts LexProps
  Tok TokRun TokSound TokComplete TokMembers Shows Exact Print Items.
Import ListNotations.
Open Scope list_scope.

(** What follows a type does not continue it. *)
Definition continues : list tok :=
  [TPunct "?"; TPunct "<"; TName false (str "long"); TName false (str "short"); TName false (str "float"); TName false (str "double")].
Definition Closed (rest : text) : Prop := forall t r, At t rest r -> ~ In t continues.
(** What follows is one of these. *)
Definition Before_one (l : list string) (rest : text) : Prop := exists c r, In c l /\ At (TPunct c) rest r.

Definition closed_toks (us : list tok) : Prop := forall t r, us = t :: r -> ~ In t continues.
Lemma closed_tfol us : closed_toks us -> tfol us /\ forall b, long_ok b us.
Proof.
  intros H. split; [split|intros b _]; intros r' ->; eapply H; eauto; cbn; tauto.
Qed.
Lemma closed_fuses us n : closed_toks us -> ~ fuses n us.
Proof. intros H [[_ (r & [E|E])]|[_ (r & [E|E])]]; subst; (eapply H; [reflexivity|cbn; tauto]). Qed.
Lemma Conc_extend_closed g us : closed_toks us -> forall i r, Conc g i r -> Conc g (i ++ us) (r ++ us).
Proof.
  intros Hu i r H. induction H; cbn [app]; try (constructor; auto; fail).
  apply Conc_ty_raw; auto. destruct i as [|t i]; [cbn; apply closed_fuses; auto|]. cbn [app]. intros K. apply fuses_cons in K. auto.
Qed.
Lemma Closed_toks r0 rest us : Stuck r0 -> Lay rest us r0 -> Closed rest -> closed_toks us.
Proof.
  intros H0 HL HC t r ->. destruct (Rd_cons r0 H0 rest r t) as (k & HA & _); [apply Rd_Lay; auto|]. eapply HC; eauto.
Qed.
Lemma Before_toks l r0 rest us : Stuck r0 -> Lay rest us r0 -> Before_one l rest -> exists c r, In c l /\ us = TPunct c :: r.
Proof.
  intros H0 HL (c & r & Hc & HA). destruct (Rd_At r0 H0 rest us (TPunct c) r) as (us' & -> & _); [apply Rd_Lay; auto|auto|eauto].
Qed.

Section Frag.
  Variable A : Type.
  Variable p : pexp A.
  Variable show : A -> list gtok.
  Variable w : A -> Prop.
  Variable F : list tok -> Prop.
  Hypothesis HI : Shape false p true.
  Hypothesis HP : Plain p.
  Hypothesis Hs : forall n i r a, krun n A p i = Ok r a -> Conc (show a) i r /\ w a.
  Hypothesis Hc : forall a i r, Conc (show a) i r -> w a -> F r -> Ev p i (Some (a, r)).
  Hypothesis HF : F [TPunct ","].

  Lemma frag_sound s rest a : parse_as p s = Ok rest a -> exists ts, Ats ts s rest /\ Conc (show a) ts [] /\ w a.
  Proof.
    intros E. destruct (tokenize s) as (ts & r0 & H0 & HR).
    destruct (text_to_toks _ _ _ _ _ _ _ _ HI HP H0 HR E) as (ts' & HE & HS).
    pose proof (Ev_len _ _ _ _ _ _ HI HE) as HL. apply Ev_Some in HE as [n HE].
    destruct (Hs _ _ _ _ HE) as [HC HW]. apply Conc_restrict in HC as (us & E' & HC).
    destruct HS as [[_ K]|(_ & _ & _ & _ & used & K & HA)]; [rewrite K in HL; lia|].
    exists us. assert (us = used) as -> by (rewrite E' in K; apply app_inv_tail in K; auto). auto.
  Qed.
  Lemma frag_nonempty a ts : Conc (show a) ts [] -> w a -> ts <> [].
  Proof.
    intros H HW ->. apply (Conc_extend_closed _ [TPunct ","]) in H; [|intros t r [= <- <-]; cbn; intuition discriminate].
    apply Hc in H; auto. apply (Ev_len _ _ _ _ _ _ HI) in H. cbn in H. lia.
  Qed.
  Lemma frag_complete s rest a ts : Ats ts s rest -> Conc (show a) ts [] -> w a ->
    (forall r0 us, Stuck r0 -> Lay rest us r0 -> F us /\ closed_toks us) ->
    parse_as p s = Ok rest a.
  Proof.
    intros HA HC HW HL'. destruct (tokenize s) as (ts0 & r0 & H0 & HR).
    pose proof (frag_nonempty _ _ HC HW) as Hne.
    destruct (Rd_Ats _ H0 _ _ _ _ HR HA Hne) as (us & -> & HL & HB).
    destruct (HL' _ _ H0 HL) as [Hf Hu]. pose proof (Conc_extend_closed _ us Hu _ _ HC) as HC'.
    destruct (toks_to_text _ _ _ _ _ _ _ _ HI HP H0 HR (Hc _ _ _ HC' HW Hf)) as (r & E & HSt). rewrite E. f_equal.
    destruct HSt as [[_ K]|(_ & _ & _ & _ & used & K & HA')].
    - exfalso. apply Hne. apply (app_inv_tail us). symmetry. exact K.
    - apply app_inv_tail in K. subst used. eapply Ats_det; eauto.
  Qed.
End Frag.

(** The parsers, with the concrete syntax and the well-formedness of their trees, and what has to follow. *)
Inductive Part : forall A : Type, pexp A -> (A -> list gtok) -> (A -> Prop) -> (text -> Prop) -> Prop :=
| Part_Type : Part _ e_Type (show_Type []) wf_Type Closed
| Part_ReturnType : Part _ e_ReturnType (show_ReturnType []) wf_ReturnType Closed
| Part_AttributedType : Part _ e_AttributedType (show_AttributedType []) wf_AttributedType Closed
| Part_ConstType : Part _ e_ConstType show_ConstType (fun _ => True) Closed
| Part_Argument : Part _ e_Argument show_Argument wf_Argument (Before_one [","; ")"]%string)
| Part_ExtendedAttribute : Part _ e_ExtendedAttribute show_ExtendedAttribute wf_ExtendedAttribute (Before_one [","; "]"]%string).

Lemma closed_punct c r : c <> "?"%string -> c <> "<"%string -> closed_toks (TPunct c :: r).
Proof. intros H1 H2 t k [= <- <-]. cbn. intros K. intuition congruence. Qed.
Lemma Part_all A (p : pexp A) show w C : Part A p show w C -> Shape false p true /\ Plain p /\
  (forall n i r a, krun n A p i = Ok r a -> Conc (show a) i r /\ w a) /\
  exists F, F [TPunct ","] /\ (forall a i r, Conc (show a) i r -> w a -> F r -> Ev p i (Some (a, r))) /\
    forall rest, C rest -> forall r0 us, Stuck r0 -> Lay rest us r0 -> F us /\ closed_toks us.
Proof.
  assert (CC : closed_toks [TPunct ","]) by (apply closed_punct; discriminate).
  assert (B : forall c rest, c <> "?"%string -> c <> "<"%string -> Before_one [","; c]%string rest ->
    forall r0 us, Stuck r0 -> Lay rest us r0 -> afol c us /\ closed_toks us).
  { intros c rest H1 H2 HB r0 us H0 HL. destruct (Before_toks _ _ _ _ H0 HL HB) as (d & r & [<-|[<-|[]]] & ->);
      (split; [exists r; auto|apply closed_punct; auto; discriminate]). }
  intros T. destruct T.
  - split; [apply (Impl_Shape _ _ _ I_Type)|split; [exact Plain_e_Type|split]].
    + intros n i r a E. apply (K_Type n []) in E; [|apply not_head_nil]. tauto.
    + exists closed_toks. split; auto. split; [|intros; split; eapply Closed_toks; eauto].
      intros a i r H1 H2 H3. apply closed_tfol in H3 as [H3 H4]. eapply Cf_Type; eauto.
  - split; [apply (Impl_Shape _ _ _ I_ReturnType)|split; [exact Plain_e_ReturnType|split]].
    + intros n i r a E. apply (K_ReturnType n []) in E; [|apply not_head_nil]. tauto.
    + exists closed_toks. split; auto. split; [|intros; split; eapply Closed_toks; eauto].
      intros a i r H1 H2 H3. apply closed_tfol in H3 as [H3 H4]. eapply Cf_ReturnType; eauto.
  - split; [apply (Impl_Shape _ _ _ I_AttributedType)|split; [exact Plain_e_AttributedType|split]].
    + intros n i r a E. apply K_AttributedType in E. tauto.
    + exists closed_toks. split; auto. split; [|intros; split; eapply Closed_toks; eauto].
      intros a i r H1 H2 H3. apply closed_tfol in H3 as [H3 H4]. eapply Cf_AttributedType; eauto.
  - split; [apply (Impl_Shape _ _ _ I_ConstType)|split; [exact Plain_e_ConstType|split]].
    + intros n i r a E. apply S_ConstType in E. tauto.
    + exists closed_toks. split; auto. split; [|intros; split; eapply Closed_toks; eauto].
      intros a i r H1 H2 H3. apply closed_tfol in H3 as [H3 H4]. eapply C_ConstType; eauto.
  - split; [apply (Impl_Shape _ _ _ I_Argument)|split; [cbn; plains|split]].
    + intros n i r a E. destruct (Snd_all n) as (H1 & H2 & H3 & H4 & H5). eapply S_Argument in E; auto.
    + exists (afol ")"). split; [exists []; auto|]. split; [|intros rest; apply B; discriminate].
      intros a i r H1 H2 H3. eapply (C_Argument (length i)); eauto; intros M _; apply (Cpl_all M).
  - split; [apply (Impl_Shape _ _ _ I_ExtendedAttribute)|split; [cbn; plains|split]].
    + intros n i r a E. destruct (Snd_all n) as (H1 & H2 & H3 & H4 & H5). eapply S_ExtendedAttribute in E; auto.
    + exists (afol "]"). split; [exists []; auto|]. split; [|intros rest; apply B; discriminate].
      intros a i r H1 H2 H3. eapply (C_ExtendedAttribute (length i)); eauto; intros M _; apply (Cpl_all M).
Qed.

Theorem part_sound A (p : pexp A) show w C : Part A p show w C -> forall s rest a, parse_as p s = Ok rest a ->
  exists ts, Ats ts s rest /\ Conc (show a) ts [] /\ w a.
Proof. intros T s rest a. destruct (Part_all _ _ _ _ _ T) as (H1 & H2 & H3 & _). apply frag_sound; auto. Qed.
Theorem part_exact A (p : pexp A) show w C : Part A p show w C -> forall s rest a, C rest ->
  (parse_as p s = Ok rest a <-> exists ts, Ats ts s rest /\ Conc (show a) ts [] /\ w a).
Proof.
  intros T s rest a HC. split; [eapply part_sound; eauto|]. intros (ts & H & H' & H'').
  destruct (Part_all _ _ _ _ _ T) as (H1 & H2 & H3 & F & HF & H4 & H5). eapply frag_complete; eauto.
Qed.

(** Lists in brackets and parentheses end by themselves. *)
Lemma Conc_extend_p c us g : forall i r, Conc (g ++ [GP c]) i r -> Conc (g ++ [GP c]) (i ++ us) (r ++ us).
Proof.
  assert (NE : forall g i r, Conc (g ++ [GP c]) i r -> i <> []).
  { clear g. intros g. induction g as [|x g IH]; cbn; intros i r H; inversion H; subst; try discriminate. eapply IH; eauto. }
  induction g as [|x g IH]; cbn [app]; intros i r H.
  - inversion H; subst. match goal with K : Conc [] _ _ |- _ => inversion K; subst end. cbn. repeat constructor.
  - inversion H; subst; try (cbn [app]; constructor; auto; fail).
    cbn [app]. match goal with K : Conc (g ++ _) ?j _ |- _ => pose proof (NE _ _ _ K); destruct j as [|t j] end; [congruence|].
    apply Conc_ty_raw; auto. intros K. apply fuses_cons in K. auto.
Qed.
Lemma closing_exact A (p : pexp A) (show : A -> list gtok) w c : Shape false p true -> Plain p ->
  (forall n i r a, krun n A p i = Ok r a -> Conc (show a ++ [GP c]) i r /\ w a) ->
  (forall a i r, Conc (show a ++ [GP c]) i r -> w a -> Ev p i (Some (a, r))) ->
  forall s rest a, parse_as p s = Ok rest a <-> exists ts, Ats ts s rest /\ Conc (show a ++ [GP c]) ts [] /\ w a.
Proof.
  intros HI HP Hs Hc s rest a. split; [apply (frag_sound _ p (fun a => show a ++ [GP c]) w HI HP Hs)|]. intros (ts & HA & HC & HW).
  destruct (tokenize s) as (ts0 & r0 & H0 & HR).
  assert (Hne : ts <> []).
  { intros ->. apply Hc in HC; auto. apply (Ev_len _ _ _ _ _ _ HI) in HC. cbn in HC. lia. }
  destruct (Rd_Ats _ H0 _ _ _ _ HR HA Hne) as (us & -> & HL & HB).
  apply (Conc_extend_p _ us) in HC. cbn in HC.
  destruct (toks_to_text _ _ _ _ _ _ _ _ HI HP H0 HR (Hc _ _ _ HC HW)) as (r & E & HSt). rewrite E. f_equal.
  destruct HSt as [[_ K]|(_ & _ & _ & _ & used & K & HA')].
  - exfalso. apply Hne. apply (app_inv_tail us). symmetry. exact K.
  - apply app_inv_tail in K. subst used. eapply Ats_det; eauto.
Qed.
Theorem arguments_exact s rest l : parse_as (e_Parenthesized e_ArgumentList) s = Ok rest l <->
  exists ts, Ats ts s rest /\ Conc (GP "(" :: join (GP ",") (map show_Argument l) ++ [GP ")"]) ts [] /\ All wf_Argument l.
Proof.
  apply (closing_exact _ _ (fun l => GP "(" :: join (GP ",") (map show_Argument l)) (fun l => All wf_Argument l)).
  - apply (Impl_Shape _ _ _ (I_Parenthesized _ _ _ I_ArgumentList)).
  - exact Plain_e_args.
  - intros n i r a E. apply K_args in E. exact E.
  - intros a i r H H'. apply Cf_args; auto.
Qed.
Theorem attributes_exact s rest l : parse_as e_ExtendedAttributeList s = Ok rest l <->
  exists ts, Ats ts s rest /\ Conc (GP "[" :: join (GP ",") (map show_ExtendedAttribute l) ++ [GP "]"]) ts [] /\ All wf_ExtendedAttribute l.
Proof.
  apply (closing_exact _ _ (fun l => GP "[" :: join (GP ",") (map show_ExtendedAttribute l)) (fun l => All wf_ExtendedAttribute l)).
  - apply (Impl_Shape _ _ _ I_ExtendedAttributeList).
  - cbn; plains.
  - intros n i r a E. destruct (Snd_all n) as (H1 & H2 & H3 & H4 & H5). eapply S_ExtendedAttributeList in E; auto.
  - intros a i r H H'. assert (K : Ev e_attributes i (Some (Some a, r))) by (apply Cf_attributes; auto; discriminate).
    apply Ev_Some in K as [n K]. apply kr_opt in K. apply Ev_Some. eauto.
Qed.
