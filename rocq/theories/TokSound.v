(** * Soundness on tokens: what a parser returns has been written in the tokens it consumed. *)
From Coq Require Import String Ascii NArith Arith Bool List Lia.
From Verif Require Import Nom Lex Ast Grammar Spec LexFacts NumFacts TokFacts RunFacts Shapes TermFacts Api ApiFacts LexProps Tok TokRun.
Import ListNotations.
Open Scope list_scope.

Definition kw (s : string) : tok := TName false (str s).

(** Where a type ending with [long] stops. *)
Definition long_ok (b : bool) (r : list tok) : Prop := b = true -> forall r', r <> kw "long" :: r'.

Lemma Conc_ident bad e n g i r : (e = false -> ~ In n (map str bad)) -> Conc g i r -> Conc (GId bad n :: g) (TName e n :: i) r.
Proof. intros H H'. destruct e; constructor; auto. Qed.
Lemma Conc_ident0 e n g i r : Conc g i r -> Conc (GId [] n :: g) (TName e n :: i) r.
Proof. apply Conc_ident. auto. Qed.
Lemma Conc_after b e n g i r : long_ok b (TName e n :: i) -> Conc g i r -> Conc (name_after b n :: g) (TName e n :: i) r.
Proof.
  intros H. apply Conc_ident. intros -> Hn. destruct b; [|destruct Hn]. destruct Hn as [<-|[]].
  apply (H eq_refl i). reflexivity.
Qed.

(** ** Tactics *)
Ltac kclean H :=
  lazymatch type of H with
  | ?i = term_tok _ :: _ => cbn [term_tok term_is_name term_text] in H; first [subst i | injection H; clear H; intros; subst]
  | ?i = _ => first [subst i | idtac]
  end.
Ltac kinv H :=
  lazymatch type of H with
  | krun _ _ (PBind _ _) _ = Ok _ _ =>
      let j := fresh "j" in let a := fresh "a" in let H1 := fresh "H" in
      apply kr_bind in H as (j & a & H1 & H); cbv beta in H; kinv H1; kinv H
  | krun _ _ (PRet _) _ = Ok _ _ => let E := fresh "E" in apply kr_ret in H as [E H]; try subst
  | krun _ _ (T_ _) _ = Ok _ _ => apply kr_term in H; kclean H
  | krun _ _ e_Identifier _ = Ok _ _ => let e := fresh "e" in apply kr_ident in H as [e H]; kclean H
  | krun _ _ (PTerm TmStringLit) _ = Ok _ _ => apply kr_str in H; kclean H
  | krun _ _ (PTerm TmDefaultValue) _ = Ok _ _ => apply kr_default in H; kclean H
  | krun _ _ (PTerm TmConstValue) _ = Ok _ _ => apply kr_const in H; kclean H
  | krun _ _ (PMap _ _) _ = Ok _ _ => let a := fresh "a" in let E := fresh "E" in apply kr_map in H as (a & H & E); try subst; kinv H
  | krun _ _ PEnd _ = Ok _ _ => destruct (kr_end _ _ _ _ _ H)
  | _ => idtac
  end.
(** Names the hypothesis about the run of [p]. *)
Ltac kname p K := match goal with H : krun _ _ p _ = Ok _ _ |- _ => rename H into K end.
(** One alternative at a time. *)
Ltac kalt H := 
  cbn [PAlt] in H;
  lazymatch type of H with
  | krun _ _ (POr (PMap _ _) _) _ = Ok _ _ =>
      let a := fresh "a" in let E := fresh "E" in let H1 := fresh "H" in let j := fresh "j" in let k := fresh "k" in
      apply kr_or_map in H as [(a & H & E)|((j & k & H1) & H)]; [try subst| ]
  | krun _ _ PEnd _ = Ok _ _ => destruct (kr_end _ _ _ _ _ H)
  end.
Ltac norm := repeat (rewrite <- !app_assoc || cbn [app]).
Ltac conc := norm;
  repeat first
    [ assumption
    | apply Conc_nil
    | apply Conc_kw | apply Conc_p | apply Conc_neginf | apply Conc_int | apply Conc_float | apply Conc_str
    | apply Conc_ident0
    | apply Conc_after; [assumption|]
    | eapply Conc_app; [eassumption|] ].

(** Evaluation of a run whose first tokens are known. *)
Ltac kcomp_in H :=
  repeat (progress (runs_in H; unfold PMap, T_, e_Option, bind, alt_or, opt, ret, alt_end, tfail in H; cbn [tok_sem] in H;
    repeat match type of H with
    | context [tok_eqb ?a ?b] => let v := eval vm_compute in (tok_eqb a b) in
        match v with true => change (tok_eqb a b) with true in H | false => change (tok_eqb a b) with false in H end
    end)).

(** ** Small pieces *)
Section Sound.
  Variable n : nat.
  Notation kr := (krun n _).

  Lemma S_opt_kw t i r o s : kr (e_Option (T_ t)) i = Ok r o -> term_tok t = kw s ->
    Conc (opt_kw o s) i r /\ (o = None -> r = i /\ forall r', i <> kw s :: r').
  Proof.
    intros H E. apply kr_opt in H. destruct o as [u|]; cbn [opt_kw].
    - apply kr_term in H. rewrite E in H. subst. split; [conc|discriminate].
    - destruct H as [-> (j & k & H)]. split; [constructor|]. intros _. split; auto. rewrite <- E. eapply kr_term_no; eauto.
  Qed.
  Lemma S_null (T : Set) (p : pexp T) i r m : kr (e_MayBeNull p) i = Ok r m ->
    exists j, kr p i = Ok j (type_ m) /\ Conc (opt_q (q_mark m)) j r /\ (q_mark m = None -> r = j).
  Proof.
    unfold e_MayBeNull. intros H. kinv H. subst. cbn. exists j. split; auto. apply kr_opt in H1.
    destruct a0 as [u|]; cbn in *.
    - apply kr_term in H1. subst. split; [conc|discriminate].
    - destruct H1 as [-> _]. split; [constructor|auto].
  Qed.
  Lemma S_null_err (T : Set) (p : pexp T) i j k : kr (e_MayBeNull p) i = Err (Error j k) -> exists j k, kr p i = Err (Error j k).
  Proof.
    unfold e_MayBeNull. rewrite run_bind. unfold bind. destruct (krun n T p i) as [r a|e|] eqn:E; try discriminate.
    - rewrite run_bind. unfold bind, e_Option. rewrite run_opt. unfold opt.
      pose proof (krun_Good n _ (T_ QMark) r) as HG.
      destruct (krun n unit (T_ QMark) r) as [r' a'|[]|]; rewrite ?run_ret; try discriminate; contradiction.
    - intros [= ->]. eauto.
  Qed.
  Lemma S_kw_null t s i r m : term_tok t = kw s -> kr (e_MayBeNull (T_ t)) i = Ok r m -> Conc (show_kw_null s m) i r.
  Proof.
    intros E H. apply S_null in H as (j & H & Hq & _). apply kr_term in H. rewrite E in H. subst.
    destruct m. cbn in *. conc.
  Qed.
  Lemma S_kw_null_no t s i j k : term_tok t = kw s -> kr (e_MayBeNull (T_ t)) i = Err (Error j k) -> forall r, i <> kw s :: r.
  Proof. intros E H. apply S_null_err in H as (j' & k' & H). rewrite <- E. eapply kr_term_no; eauto. Qed.

  Lemma S_IntegerType i r t : kr e_IntegerType i = Ok r t ->
    Conc (show_IntegerType t) i r /\ long_ok (match t with IntegerType_Long _ => true | _ => false end) r.
  Proof.
    unfold e_IntegerType. intros H. kalt H; [|kalt H; [|kalt H; [|kalt H]]].
    - unfold e_LongLongType in H. kinv H. subst. apply (S_opt_kw Unsigned _ _ _ "unsigned") in H0 as [H0 _]; auto.
      cbn. split; [conc|discriminate].
    - unfold e_LongType in H. kinv H. subst. split.
      + apply (S_opt_kw Unsigned _ _ _ "unsigned") in H1 as [H1 _]; auto. cbn. conc.
      + intros _ r' ->. unfold e_LongLongType in H0. rewrite run_bind in H0. unfold bind in H0. rewrite H1 in H0. runs_in H0. unfold bind, T_, ret in H0. runs_in H0. cbn [tok_sem term_tok term_is_name term_text] in H0.
        unfold kw in H0. rewrite tok_eqb_refl in H0. discriminate.
    - unfold e_ShortType in H. kinv H. subst. apply (S_opt_kw Unsigned _ _ _ "unsigned") in H2 as [H2 _]; auto.
      cbn. split; [conc|discriminate].
  Qed.
  Lemma S_FloatingPointType i r t : kr e_FloatingPointType i = Ok r t -> Conc (show_FloatingPointType t) i r.
  Proof.
    unfold e_FloatingPointType. intros H. kalt H; [|kalt H; [|kalt H]].
    - unfold e_FloatType in H. kinv H. subst. apply (S_opt_kw Unrestricted _ _ _ "unrestricted") in H0 as [H0 _]; auto. cbn. conc.
    - unfold e_DoubleType in H. kinv H. subst. apply (S_opt_kw Unrestricted _ _ _ "unrestricted") in H1 as [H1 _]; auto. cbn. conc.
  Qed.

  Lemma S_Integer_no i j k : kr e_IntegerType i = Err (Error j k) -> forall r,
    i <> kw "long" :: r /\ i <> kw "short" :: r /\ i <> kw "unsigned" :: kw "long" :: r /\ i <> kw "unsigned" :: kw "short" :: r.
  Proof.
    intros H r. unfold e_IntegerType, e_LongLongType, e_LongType, e_ShortType in H. cbn [PAlt] in H.
    repeat split; intros ->; kcomp_in H; try discriminate;
      (destruct r as [|x r]; [discriminate|]; destruct (tok_eqb x (term_tok Long)); kcomp_in H; discriminate).
  Qed.
  Lemma S_Float_no i j k : kr e_FloatingPointType i = Err (Error j k) -> forall r,
    i <> kw "float" :: r /\ i <> kw "double" :: r /\ i <> kw "unrestricted" :: kw "float" :: r /\ i <> kw "unrestricted" :: kw "double" :: r.
  Proof.
    intros H r. unfold e_FloatingPointType, e_FloatType, e_DoubleType in H. cbn [PAlt] in H.
    repeat split; intros ->; kcomp_in H; discriminate.
  Qed.

  (** Types whose tree begins with an identifier. *)
  Lemma S_TyIdent bad i r m : kr (e_MayBeNull e_Identifier) i = Ok r m ->
    not_head bad i ->
    (forall r, i <> kw "unsigned" :: kw "long" :: r /\ i <> kw "unsigned" :: kw "short" :: r) ->
    (forall r, i <> kw "unrestricted" :: kw "float" :: r /\ i <> kw "unrestricted" :: kw "double" :: r) ->
    Conc (show_null (fun n => [GTy bad n]) m) i r.
  Proof.
    intros H Hb Hu Hf. apply S_null in H as (j & H & Hq & _). apply kr_ident in H as [e ->].
    destruct m as [t q]. cbn [show_null type_ q_mark app] in *. destruct e; [constructor; auto|].
    constructor; auto.
    - eapply Hb; eauto.
    - intros [[-> (r' & [-> | ->])]|[-> (r' & [-> | ->])]].
      + destruct (Hu r') as [K1 K2]; first [apply K1; reflexivity|apply K2; reflexivity].
      + destruct (Hu r') as [K1 K2]; first [apply K1; reflexivity|apply K2; reflexivity].
      + destruct (Hf r') as [K1 K2]; first [apply K1; reflexivity|apply K2; reflexivity].
      + destruct (Hf r') as [K1 K2]; first [apply K1; reflexivity|apply K2; reflexivity].
  Qed.

  Ltac nokw Hi Hf := first [apply Hi | apply Hf |
    match goal with H : krun _ _ (e_MayBeNull (T_ ?t)) _ = Err _ |- _ => exact (S_kw_null_no t _ _ _ _ eq_refl H _) end |
    match goal with H : krun _ _ (T_ ?t) _ = Err _ |- _ => exact (kr_term_no _ t _ _ _ H _) end].

  Lemma S_ConstType i r t : kr e_ConstType i = Ok r t -> Conc (show_ConstType t) i r /\ long_ok (const_ends_long t) r.
  Proof.
    unfold e_ConstType. intros H.
    kalt H; [|kalt H; [|kalt H; [|kalt H; [|kalt H; [|kalt H; [|kalt H]]]]]].
    - apply S_null in H as (j & H & Hq & Hr). apply S_IntegerType in H as [H Hl]. destruct a as [t q]. cbn in *.
      split; [conc|]. intros E. destruct t; try discriminate. destruct q; try discriminate. rewrite Hr by auto. apply Hl. auto.
    - apply S_null in H as (j' & H & Hq & Hr). apply S_FloatingPointType in H. destruct a as [t q]. cbn in *.
      split; [conc|discriminate].
    - split; [|discriminate]. eapply S_kw_null; eauto. reflexivity.
    - split; [|discriminate]. eapply S_kw_null; eauto. reflexivity.
    - split; [|discriminate]. eapply S_kw_null; eauto. reflexivity.
    - split; [|discriminate]. apply S_null_err in H0 as (? & ? & H0). apply S_null_err in H1 as (? & ? & H1).
      pose proof (S_Integer_no _ _ _ H0) as Hi. pose proof (S_Float_no _ _ _ H1) as Hf.
      apply S_TyIdent; auto; [|intros r'; specialize (Hi r'); tauto|intros r'; specialize (Hf r'); tauto].
      unfold const_words. repeat apply not_head_cons; try apply not_head_nil; intros r'; nokw Hi Hf.
  Qed.

  (** ** The recursive types, given that recursive calls are sound *)
  Definition Snd_Type (p : pexp Type_) : Prop := forall bad i r t, kr p i = Ok r t -> not_head bad i ->
    Conc (show_Type bad t) i r /\ wf_Type t /\ long_ok (type_ends_long t) r.
  Definition Snd_ReturnType (p : pexp ReturnType) : Prop := forall bad i r t, kr p i = Ok r t -> not_head bad i ->
    Conc (show_ReturnType bad t) i r /\ wf_ReturnType t /\ long_ok (return_ends_long t) r.
  Definition Snd_RecordKeyType (p : pexp RecordKeyType) : Prop := forall i r t, kr p i = Ok r t ->
    Conc (show_RecordKeyType t) i r /\ wf_RecordKeyType t.
  Definition Snd_UnionMemberType (p : pexp UnionMemberType) : Prop := forall i r t, kr p i = Ok r t ->
    Conc (show_UnionMemberType t) i r /\ wf_UnionMemberType t.
  Definition Snd_ExtendedAttribute (p : pexp ExtendedAttribute) : Prop := forall i r t, kr p i = Ok r t ->
    Conc (show_ExtendedAttribute t) i r /\ wf_ExtendedAttribute t.

  Lemma Chained_Conc A (f : A -> list gtok) (w : A -> Prop) i l r :
    Chained (fun a i r => Conc (f a) i r /\ w a) i l r -> Conc (flat_map f l) i r /\ All w l.
  Proof.
    induction 1 as [i|i a j l r [H1 H2] _ [IH1 IH2]]; cbn; [split; auto; constructor|].
    split; auto. eapply Conc_app; eauto.
  Qed.
  Lemma SepChained_Conc A (f : A -> list gtok) (w : A -> Prop) t sep i l r :
    (forall g i r, Conc g i r -> Conc (sep :: g) (term_tok t :: i) r) ->
    SepChained (fun a i r => Conc (f a) i r /\ w a) t i l r -> Conc (flat_map (fun a => sep :: f a) l) i r /\ All w l.
  Proof.
    intros Hs. induction 1 as [i|i a j l r [H1 H2] _ [IH1 IH2]]; [split; [constructor|exact Logic.I]|]. cbn [flat_map All].
    split; auto. apply (Hs ((f a) ++ flat_map (fun a => sep :: f a) l)). eapply Conc_app; eauto.
  Qed.
  Lemma S_Punctuated A (q : pexp A) t sep (f : A -> list gtok) (w : A -> Prop) i r l :
    (forall g i r, Conc g i r -> Conc (sep :: g) (term_tok t :: i) r) ->
    (forall i r a, kr q i = Ok r a -> Conc (f a) i r /\ w a) ->
    kr (e_Punctuated q t) i = Ok r l -> Conc (join sep (map f l)) i r /\ All w l.
  Proof.
    intros Hs Hq H. apply (kr_seplist n q (fun a i r => Conc (f a) i r /\ w a) Hq) in H. destruct l as [|a l].
    - subst. split; [constructor|exact Logic.I].
    - destruct H as (j & [H1 H2] & H). apply (SepChained_Conc _ _ _ _ sep) in H as [H3 H4]; auto.
      rewrite join_cons. split; [|split; auto]. eapply Conc_app; eauto.
  Qed.
  Lemma S_Vec A (q : pexp A) (f : A -> list gtok) (w : A -> Prop) i r l :
    (forall i r a, kr q i = Ok r a -> Conc (f a) i r /\ w a) ->
    kr (e_Vec q) i = Ok r l -> Conc (flat_map f l) i r /\ All w l.
  Proof. intros Hq H. apply (kr_many n q (fun a i r => Conc (f a) i r /\ w a) Hq) in H. apply Chained_Conc; auto. Qed.

  Section Rec.
    Hypothesis HT : Snd_Type (PNT NT_Type).
    Hypothesis HR : Snd_ReturnType (PNT NT_ReturnType).
    Hypothesis HK : Snd_RecordKeyType (PNT NT_RecordKeyType).
    Hypothesis HU : Snd_UnionMemberType (PNT NT_UnionMemberType).
    Hypothesis HA : Snd_ExtendedAttribute (PNT NT_ExtendedAttribute).

    Ltac ksep sep f w Hq :=
      match goal with K : krun _ _ (e_Punctuated _ _) _ = Ok _ _ |- _ =>
        apply (S_Punctuated _ _ _ sep f w) in K as [? ?];
          [ | let K' := fresh in intros ? ? ? K'; cbn; constructor; exact K' | exact Hq ] end.

    Lemma S_UnionType i r m : kr (e_MayBeNull e_UnionType) i = Ok r m ->
      match m with mkMayBeNull l q =>
        Conc (GP "(" :: join (GKw "or") (map show_UnionMemberType l) ++ GP ")" :: opt_q q) i r /\ All wf_UnionMemberType l end.
    Proof.
      intros H. apply S_null in H as (j & H & Hq & _). destruct m as [l q]. cbn in *. unfold e_UnionType, e_Parenthesized in H.
      kinv H. subst. ksep (GKw "or") show_UnionMemberType wf_UnionMemberType HU. split; auto. conc.
    Qed.
    Lemma S_ExtendedAttributeList i r l : kr e_ExtendedAttributeList i = Ok r l ->
      Conc (GP "[" :: join (GP ",") (map show_ExtendedAttribute l) ++ [GP "]"]) i r /\ All wf_ExtendedAttribute l.
    Proof.
      unfold e_ExtendedAttributeList, e_Bracketed. intros H. kinv H. subst.
      ksep (GP ",") show_ExtendedAttribute wf_ExtendedAttribute HA. split; auto. conc.
    Qed.
    Lemma S_attributes i r a : kr e_attributes i = Ok r a -> Conc (show_attributes a) i r /\ wf_attributes a /\
      (a = None -> r = i /\ exists j k, kr e_ExtendedAttributeList i = Err (Error j k)).
    Proof.
      intros H. apply kr_opt in H. destruct a as [l|].
      - apply S_ExtendedAttributeList in H as [H1 H2]. split; [exact H1|split; auto; discriminate].
      - destruct H as [-> H]. split; [constructor|split; auto]. exact Logic.I.
    Qed.

    Lemma S_generic_Type i r t : kr (e_Generics (PNT NT_Type)) i = Ok r t ->
      Conc (GP "<" :: show_Type [] t ++ [GP ">"]) i r /\ wf_Type t.
    Proof.
      unfold e_Generics. intros H. kinv H. subst.
      match goal with K : krun _ _ (PNT _) _ = Ok _ _ |- _ => apply (HT []) in K as (? & ? & _); [|apply not_head_nil] end.
      split; auto. conc.
    Qed.
    Lemma S_Sequence i r t : kr e_SequenceType i = Ok r t ->
      Conc (show_SequenceType t) i r /\ match t with mkSequenceType x => wf_Type x end.
    Proof.
      unfold e_SequenceType. intros H. kinv H. subst.
      match goal with K : krun _ _ (e_Generics _) _ = Ok _ _ |- _ => apply S_generic_Type in K as [? ?] end.
      cbn [show_SequenceType]. split; auto. conc.
    Qed.
    Lemma S_FrozenArray i r t : kr e_FrozenArrayType i = Ok r t ->
      Conc (show_FrozenArrayType t) i r /\ match t with mkFrozenArrayType x => wf_Type x end.
    Proof.
      unfold e_FrozenArrayType. intros H. kinv H. subst.
      match goal with K : krun _ _ (e_Generics _) _ = Ok _ _ |- _ => apply S_generic_Type in K as [? ?] end.
      cbn [show_FrozenArrayType]. split; auto. conc.
    Qed.
    Lemma S_Promise i r t : kr e_PromiseType i = Ok r t ->
      Conc (show_PromiseType t) i r /\ match t with mkPromiseType x => wf_ReturnType x end.
    Proof.
      unfold e_PromiseType, e_Generics. intros H. kinv H. kinv H1. subst.
      match goal with K : krun _ _ (PNT _) _ = Ok _ _ |- _ => apply (HR []) in K as (? & ? & _); [|apply not_head_nil] end.
      cbn [show_PromiseType]. split; auto. conc.
    Qed.
    Lemma S_Record i r t : kr e_RecordType i = Ok r t ->
      Conc (show_RecordType t) i r /\ match t with mkRecordType k v => wf_RecordKeyType k /\ wf_Type v end.
    Proof.
      unfold e_RecordType, e_Generics, e_triple. intros H. kinv H. subst.
      match goal with K : krun _ _ (PNT NT_Type) _ = Ok _ _ |- _ => apply (HT []) in K as (? & ? & _); [|apply not_head_nil] end.
      match goal with K : krun _ _ (PNT _) _ = Ok _ _ |- _ => apply HK in K as (? & ?) end.
      cbn [show_RecordType fst snd]. split; auto. conc.
    Qed.

    Ltac kwn := split; [|split; [exact Logic.I|discriminate]]; eapply S_kw_null; eauto; reflexivity.

    Lemma S_NonAnyType bad i r t : kr e_NonAnyType i = Ok r t -> not_head bad i ->
      Conc (show_NonAnyType bad t) i r /\ wf_NonAnyType t /\ long_ok (nonany_ends_long t) r.
    Proof.
      unfold e_NonAnyType. intros H Hb.
      kalt H.
      { apply S_Promise in H as [K1 K2]. split; [exact K1|split; [destruct a; exact K2|discriminate]]. }
      kalt H.
      { apply S_null in H as (j' & H & Hq & Hr). apply S_IntegerType in H as [H Hl]. destruct a as [t q]. cbn in *.
        split; [conc|split; auto]. intros E. destruct t; try discriminate. destruct q; try discriminate. rewrite Hr by auto. apply Hl. auto. }
      kalt H.
      { apply S_null in H as (j' & H & Hq & Hr). apply S_FloatingPointType in H. destruct a as [t q]. cbn in *.
        split; [conc|split; auto; discriminate]. }
      do 6 (kalt H; [kwn|]).
      kalt H.
      { apply S_null in H as (j' & H & Hq & Hr). apply S_Sequence in H as [K1 K2]. destruct a as [t q]. cbn [type_ q_mark] in *.
        cbn [show_NonAnyType]. split; [conc|split; [destruct t; exact K2|discriminate]]. }
      do 16 (kalt H; [kwn|]).
      kalt H.
      { apply S_null in H as (j' & H & Hq & Hr). apply S_FrozenArray in H as [K1 K2]. destruct a as [t q]. cbn [type_ q_mark] in *.
        cbn [show_NonAnyType]. split; [conc|split; [destruct t; exact K2|discriminate]]. }
      kalt H.
      { apply S_null in H as (j' & H & Hq & Hr). apply S_Record in H as [K1 K2]. destruct a as [t q]. cbn [type_ q_mark] in *.
        cbn [show_NonAnyType]. split; [conc|split; [destruct t; exact K2|discriminate]]. }
      kalt H; [|kalt H].
      split; [|split; [exact Logic.I|discriminate]]. cbn [show_NonAnyType].
      apply S_null_err in H1 as (? & ? & H1). apply S_null_err in H2 as (? & ? & H2).
      pose proof (S_Integer_no _ _ _ H1) as Hi. pose proof (S_Float_no _ _ _ H2) as Hf.
      apply S_TyIdent; auto; [|intros r'; specialize (Hi r'); tauto|intros r'; specialize (Hf r'); tauto].
      apply not_head_app; auto. unfold type_words, const_words. cbn [app].
      repeat apply not_head_cons; try apply not_head_nil; intros r'; nokw Hi Hf.
    Qed.
    Lemma S_SingleType bad i r t : kr e_SingleType i = Ok r t -> not_head bad i ->
      Conc (show_SingleType bad t) i r /\ wf_SingleType t /\
      long_ok (match t with SingleType_NonAny x => nonany_ends_long x | _ => false end) r.
    Proof.
      unfold e_SingleType. intros H Hb. kalt H; [|kalt H; [|kalt H]].
      - kinv H. cbn. split; [conc|split; auto; discriminate].
      - eapply S_NonAnyType in H; [exact H|]. apply not_head_cons; auto. apply (kr_term_no _ _ _ _ _ H0).
    Qed.
    Lemma S_Type : Snd_Type e_Type.
    Proof.
      unfold Snd_Type, e_Type. intros bad i r t H Hb. kalt H; [|kalt H; [|kalt H]].
      - apply S_SingleType with (bad := bad) in H as (H1 & H2 & H3); [|exact Hb]. split; [exact H1|split; [exact H2|]].
        destruct a; exact H3.
      - apply S_UnionType in H. destruct a as [l q]. destruct H as [H1 H2]. split; [exact H1|split; [exact H2|discriminate]].
    Qed.
    Lemma S_ReturnType : Snd_ReturnType e_ReturnType.
    Proof.
      unfold Snd_ReturnType, e_ReturnType. intros bad i r t H Hb. kalt H; [|kalt H; [|kalt H]].
      - kinv H. cbn. split; [conc|split; auto; discriminate].
      - apply (S_Type ("undefined"%string :: bad)) in H; [exact H|]. apply not_head_cons; auto. apply (kr_term_no _ _ _ _ _ H0).
    Qed.
    Lemma S_RecordKeyType : Snd_RecordKeyType e_RecordKeyType.
    Proof.
      unfold Snd_RecordKeyType, e_RecordKeyType. intros i r t H. kalt H; [|kalt H; [|kalt H; [|kalt H; [|kalt H]]]].
      1-3: kinv H; cbn; split; [conc|auto].
      pose proof (S_NonAnyType [] _ _ _ H ltac:(apply not_head_nil)) as (K1 & K2 & _). split; [exact K1|].
      assert (E : forall s m, Conc (show_kw_null s m) i r -> exists r', i = kw s :: r').
      { intros s [u q] K. cbn in K. inversion K; subst. eauto. }
      destruct a; try exact K2; apply E in K1 as [r' ->].
      - eapply (kr_term_no _ _ _ _ _ H0); reflexivity.
      - eapply (kr_term_no _ _ _ _ _ H1); reflexivity.
      - eapply (kr_term_no _ _ _ _ _ H2); reflexivity.
    Qed.
    Lemma S_AttributedType bad i r t : kr e_AttributedType i = Ok r t -> not_head bad i ->
      Conc (show_AttributedType bad t) i r /\ wf_AttributedType t /\ long_ok (attributed_ends_long t) r /\
      ((exists j k, kr e_ExtendedAttributeList i = Err (Error j k)) -> match t with mkAttributedType ta _ => ta = None end).
    Proof.
      unfold e_AttributedType. intros H Hb. kinv H. subst.
      kname e_attributes Ka. kname e_Type Kt.
      pose proof (kr_opt _ _ _ _ _ _ Ka) as Ho. apply S_attributes in Ka as (H1 & H2 & H3). cbn [show_AttributedType wf_AttributedType attributed_ends_long].
      destruct a as [l|].
      - apply (S_Type []) in Kt as (H4 & H5 & H6); [|apply not_head_nil]. repeat split; auto.
        + cbn [show_attributes] in H1.
          assert (E : GP "[" :: join (GP ",") (map show_ExtendedAttribute l) ++ GP "]" :: show_Type [] a0 =
            (GP "[" :: join (GP ",") (map show_ExtendedAttribute l) ++ [GP "]"]) ++ show_Type [] a0) by (norm; reflexivity).
          rewrite E. eapply Conc_app; eauto.
        + intros (? & ? & K). congruence.
      - destruct (H3 eq_refl) as [-> _]. apply (S_Type bad) in Kt as (H4 & H5 & H6); auto.
    Qed.
    Lemma S_UnionMemberType : Snd_UnionMemberType e_UnionMemberType.
    Proof.
      unfold Snd_UnionMemberType, e_UnionMemberType. intros i r t H. kalt H; [|kalt H; [|kalt H]].
      - unfold e_AttributedNonAnyType in H. kinv H. subst.
        kname e_attributes Ka. kname e_NonAnyType Kt.
        apply S_attributes in Ka as (H1 & H2 & _). apply (S_NonAnyType []) in Kt as (H3 & H4 & _); [|apply not_head_nil].
        cbn [show_UnionMemberType wf_UnionMemberType]. split; auto.
        match goal with |- Conc _ ?i ?r => change (Conc (show_attributes a0 ++ show_NonAnyType [] a1) i r) end. conc.
      - apply S_UnionType in H. destruct a as [l q]. exact H.
    Qed.

    (** *** Arguments and attributes *)
    Lemma S_Default i r v : kr e_Default i = Ok r v -> Conc (GP "=" :: show_DefaultValue v) i r.
    Proof.
      unfold e_Default. intros H. kinv H. subst. cbn [term_tok term_is_name term_text]. constructor.
      match goal with |- Conc (show_DefaultValue ?v) _ _ => destruct v as [[]| | |[]| | |]; cbn; conc end.
    Qed.
    Lemma S_opt_Default i r o : kr (e_Option e_Default) i = Ok r o -> Conc (show_default o) i r.
    Proof.
      intros H. apply kr_opt in H. destruct o as [v|].
      - apply S_Default in H. exact H.
      - destruct H as [-> _]. constructor.
    Qed.
    Lemma S_Argument i r a : kr e_Argument i = Ok r a -> Conc (show_Argument a) i r /\ wf_Argument a.
    Proof.
      unfold e_Argument. intros H. kalt H; [|kalt H; [|kalt H]].
      - unfold e_SingleArgument in H. kinv H. subst.
        kname e_attributes Ka. kname e_AttributedType Kt.
        match goal with K : krun _ _ (e_Option (T_ Optional)) _ = _ |- _ => apply (S_opt_kw _ _ _ _ "optional") in K as [Ko Ko']; auto end.
        match goal with K : krun _ _ (PCond _ _) ?i = Ok ?r ?x |- _ =>
          assert (Kd : Conc (show_default (match x with Some d => d | None => None end)) i r /\
                       (is_some (match x with Some d => d | None => None end) -> is_some a1));
            [unfold PCond in K; destruct a1 as [u|]|]; [kinv K; apply S_opt_Default in K; split; auto; discriminate|
             kinv K; subst; split; [constructor|intros K'; exfalso; apply K'; reflexivity] |]; clear K end.
        destruct Kd as [Kd Kd'].
        apply S_attributes in Ka as (Ka & Kaw & Kan).
        destruct (S_AttributedType (unless a1 ["optional"%string]) _ _ _ Kt) as (Kt1 & Kt2 & Kt3 & Kt4).
        { destruct a1; [apply not_head_nil|]. destruct (Ko' eq_refl) as [-> Ko2]. apply not_head_cons; auto. apply not_head_nil. }
        split.
        + cbn [show_Argument].
          match goal with |- Conc _ ?i ?r => change (Conc (show_attributes a ++ opt_kw a1 "optional" ++
            show_AttributedType (unless a1 ["optional"%string]) a2 ++
            name_after (attributed_ends_long a2) a3 :: show_default match a5 with Some d' => d' | None => None end) i r) end.
          conc.
        + cbn [wf_Argument]. split; [exact Kaw|split; [exact Kt2|split; [exact Kd'|]]]. intros -> ->.
          destruct (Kan eq_refl) as [-> Kan']. destruct (Ko' eq_refl) as [-> _]. apply Kt4. exact Kan'.
      - unfold e_VariadicArgument in H. kinv H. subst. kname e_attributes Ka. kname e_Type Kt.
        apply S_attributes in Ka as (Ka & Kaw & _). apply (S_Type []) in Kt as (Kt1 & Kt2 & _); [|apply not_head_nil].
        split; [|cbn [wf_Argument]; split; assumption].
        match goal with |- Conc (show_Argument (Argument_Variadic (mkVariadicArgument ?a ?t ?x))) ?i ?r =>
          change (Conc (show_attributes a ++ show_Type [] t ++ [GP "..."; GId [] x]) i r) end.
        conc.
    Qed.
    Lemma S_args i r l : kr (e_Parenthesized e_ArgumentList) i = Ok r l -> Conc (show_args l) i r /\ wf_args l.
    Proof.
      unfold e_Parenthesized, e_ArgumentList. intros H. kinv H. subst.
      ksep (GP ",") show_Argument wf_Argument S_Argument. unfold show_args. split; auto. conc.
    Qed.
    Lemma S_ident i r x : kr e_Identifier i = Ok r x -> Conc [GId [] x] i r /\ True.
    Proof. intros H. kinv H. split; auto. conc. Qed.
    Lemma S_ExtendedAttribute : Snd_ExtendedAttribute e_ExtendedAttribute.
    Proof.
      unfold Snd_ExtendedAttribute, e_ExtendedAttribute. intros i r a H.
      kalt H; [|kalt H; [|kalt H; [|kalt H; [|kalt H; [|kalt H; [|kalt H]]]]]].
      - unfold e_ExtendedAttributeArgList in H. kinv H. subst.
        match goal with K : krun _ _ (e_Parenthesized _) _ = Ok _ _ |- _ => apply S_args in K as [K1 K2] end.
        split; [|exact K2]. cbn [show_ExtendedAttribute]. apply Conc_ident0. exact K1.
      - unfold e_ExtendedAttributeNamedArgList in H. kinv H. subst.
        match goal with K : krun _ _ (e_Parenthesized _) _ = Ok _ _ |- _ => apply S_args in K as [K1 K2] end.
        split; [|exact K2]. cbn [show_ExtendedAttribute]. apply Conc_ident0. apply Conc_p. apply Conc_ident0. exact K1.
      - unfold e_ExtendedAttributeIdentList, e_Parenthesized, e_IdentifierList in H. kinv H. subst.
        ksep (GP ",") (fun n : Identifier => [GId [] n]) (fun _ : Identifier => True) S_ident.
        split; [|exact Logic.I]. cbn [show_ExtendedAttribute]. conc.
      - unfold e_ExtendedAttributeIdent in H. kinv H. subst.
        match goal with K : krun _ _ e_IdentifierOrString _ = Ok _ _ |- _ => unfold e_IdentifierOrString in K;
          kalt K; [|kalt K; [|kalt K]]; kinv K end; split; try exact Logic.I; cbn [show_ExtendedAttribute show_IdentifierOrString]; conc.
      - unfold e_ExtendedAttributeWildCard in H. kinv H. subst. split; [|exact Logic.I]. cbn [show_ExtendedAttribute]. conc.
      - unfold e_ExtendedAttributeNoArgs in H. kinv H. split; [|exact Logic.I]. cbn [show_ExtendedAttribute]. conc.
    Qed.
  End Rec.

  (** All recursive parsers at the same time. *)
  Definition Snd : Prop :=
    Snd_Type (PNT NT_Type) /\ Snd_ReturnType (PNT NT_ReturnType) /\ Snd_RecordKeyType (PNT NT_RecordKeyType) /\
    Snd_UnionMemberType (PNT NT_UnionMemberType) /\ Snd_ExtendedAttribute (PNT NT_ExtendedAttribute).
End Sound.

Lemma Snd_all n : Snd n.
Proof.
  induction n as [|n (H1 & H2 & H3 & H4 & H5)].
  - repeat split; discriminate.
  - split; [|split; [|split; [|split]]].
    + intros bad i r t H. rewrite run_nt_S in H. revert H. apply S_Type; auto.
    + intros bad i r t H. rewrite run_nt_S in H. revert H. apply S_ReturnType; auto.
    + intros i r t H. rewrite run_nt_S in H. revert H. apply S_RecordKeyType; auto.
    + intros i r t H. rewrite run_nt_S in H. revert H. apply S_UnionMemberType; auto.
    + intros i r t H. rewrite run_nt_S in H. revert H. apply S_ExtendedAttribute; auto.
Qed.

(** ** Members and definitions *)
Section Members.
  Variable n : nat.
  Notation kr := (krun n _).

  Lemma K_attributes i r a : kr e_attributes i = Ok r a -> Conc (show_attributes a) i r /\ wf_attributes a.
  Proof. destruct (Snd_all n) as (H1 & H2 & H3 & H4 & H5). intros H. apply S_attributes in H; auto. tauto. Qed.
  Lemma K_AttributedType i r t : kr e_AttributedType i = Ok r t ->
    Conc (show_AttributedType [] t) i r /\ wf_AttributedType t /\ long_ok (attributed_ends_long t) r.
  Proof.
    destruct (Snd_all n) as (H1 & H2 & H3 & H4 & H5). intros H. apply (S_AttributedType n H1 H2 H3 H4 H5 []) in H; [tauto|apply not_head_nil].
  Qed.
  Lemma K_Type bad i r t : kr e_Type i = Ok r t -> not_head bad i ->
    Conc (show_Type bad t) i r /\ wf_Type t /\ long_ok (type_ends_long t) r.
  Proof. destruct (Snd_all n) as (H1 & H2 & H3 & H4 & H5). intros H. apply (S_Type n); auto. Qed.
  Lemma K_ReturnType bad i r t : kr e_ReturnType i = Ok r t -> not_head bad i ->
    Conc (show_ReturnType bad t) i r /\ wf_ReturnType t /\ long_ok (return_ends_long t) r.
  Proof. destruct (Snd_all n) as (H1 & H2 & H3 & H4 & H5). intros H. apply (S_ReturnType n); auto. Qed.
  Lemma K_args i r l : kr (e_Parenthesized e_ArgumentList) i = Ok r l -> Conc (show_args l) i r /\ wf_args l.
  Proof. destruct (Snd_all n) as (H1 & H2 & H3 & H4 & H5). apply S_args; auto. Qed.
  Lemma K_opt_args i r o : kr (e_Option (e_Parenthesized e_ArgumentList)) i = Ok r o ->
    Conc (show_opt_args o) i r /\ wf_opt_args o.
  Proof.
    intros H. apply kr_opt in H. destruct o as [l|]; [apply K_args in H; exact H|]. destruct H as [-> _].
    split; [constructor|exact Logic.I].
  Qed.
  Lemma K_one i r g : kr (e_Generics e_AttributedType) i = Ok r g -> Conc (show_one g) i r /\ wf_AttributedType g.
  Proof.
    unfold e_Generics. intros H. kinv H. subst. kname e_AttributedType K. apply K_AttributedType in K as (K1 & K2 & _).
    unfold show_one. split; auto. conc.
  Qed.
  Lemma K_pair i r g : kr (e_Generics (e_triple e_AttributedType Comma e_AttributedType)) i = Ok r g ->
    Conc (show_pair g) i r /\ wf_pair g.
  Proof.
    unfold e_Generics, e_triple. intros H. kinv H. subst. kname e_AttributedType K. apply K_AttributedType in K as (K1 & K2 & _).
    kname e_AttributedType K. apply K_AttributedType in K as (K3 & K4 & _).
    unfold show_pair, wf_pair. cbn [fst snd]. split; auto. conc.
  Qed.
  Lemma K_const_toks v r : Conc (show_ConstValue v) (const_toks v ++ r) r.
  Proof. destruct v as [[]|[]| |]; cbn; conc. Qed.
  Lemma K_opt_SIS i r o : kr (e_Option e_StringifierOrInheritOrStatic) i = Ok r o -> Conc (show_SIS o) i r.
  Proof.
    intros H. apply kr_opt in H. destruct o as [l|].
    - unfold e_StringifierOrInheritOrStatic in H. kalt H; [|kalt H; [|kalt H; [|kalt H]]]; kinv H; cbn; conc.
    - destruct H as [-> _]. constructor.
  Qed.
  Lemma K_opt_SS i r o : kr (e_Option e_StringifierOrStatic) i = Ok r o ->
    Conc (show_SS o) i r /\ (o = None -> r = i /\ not_head ["stringifier"; "static"]%string i).
  Proof.
    intros H. apply kr_opt in H. destruct o as [l|].
    - split; [|discriminate]. unfold e_StringifierOrStatic in H. kalt H; [|kalt H; [|kalt H]]; kinv H; cbn; conc.
    - destruct H as [-> (j & k & H)]. split; [constructor|]. intros _. split; auto.
      unfold e_StringifierOrStatic in H. cbn [PAlt] in H. repeat apply not_head_cons; try apply not_head_nil; intros r ->; kcomp_in H; discriminate.
  Qed.
  Lemma K_opt_Special i r o : kr (e_Option e_Special) i = Ok r o ->
    Conc (show_Special o) i r /\ (o = None -> r = i /\ not_head ["getter"; "setter"; "deleter"; "legacycaller"]%string i).
  Proof.
    intros H. apply kr_opt in H. destruct o as [l|].
    - split; [|discriminate]. unfold e_Special in H. kalt H; [|kalt H; [|kalt H; [|kalt H; [|kalt H]]]]; kinv H; cbn; conc.
    - destruct H as [-> (j & k & H)]. split; [constructor|]. intros _. split; auto.
      unfold e_Special in H. cbn [PAlt] in H. repeat apply not_head_cons; try apply not_head_nil; intros r ->; kcomp_in H; discriminate.
  Qed.
  Lemma K_opt_name b i r o : kr (e_Option e_Identifier) i = Ok r o -> long_ok b i -> Conc (show_opt_name b o) i r.
  Proof.
    intros H Hb. apply kr_opt in H. destruct o as [x|].
    - kinv H. cbn [show_opt_name]. conc.
    - destruct H as [-> _]. constructor.
  Qed.
  Lemma K_opt_inheritance i r o : kr (e_Option e_Inheritance) i = Ok r o -> Conc (show_inheritance o) i r.
  Proof.
    intros H. apply kr_opt in H. destruct o as [x|].
    - unfold e_Inheritance in H. kinv H. subst. cbn. conc.
    - destruct H as [-> _]. constructor.
  Qed.
  Lemma K_body A (f : A -> list gtok) (w : A -> Prop) (q : pexp A) i r l :
    (forall i r a, kr q i = Ok r a -> Conc (f a) i r /\ w a) ->
    kr (e_Braced (e_Vec q)) i = Ok r l -> Conc (show_body f l) i r /\ All w l.
  Proof.
    intros Hq. unfold e_Braced. intros H. kinv H. subst.
    match goal with K : krun _ _ (e_Vec _) _ = Ok _ _ |- _ => apply (S_Vec n A q f w) in K as [K1 K2]; auto end.
    unfold show_body. split; auto. conc.
  Qed.

  Ltac ksnd :=
    repeat match goal with
    | K : krun _ _ e_attributes _ = Ok _ _ |- _ => apply K_attributes in K as [? ?]
    | K : krun _ _ e_AttributedType _ = Ok _ _ |- _ => apply K_AttributedType in K as (? & ? & ?)
    | K : krun _ _ e_ConstType _ = Ok _ _ |- _ => apply S_ConstType in K as [? ?]
    | K : krun _ _ (e_Parenthesized e_ArgumentList) _ = Ok _ _ |- _ => apply K_args in K as [? ?]
    | K : krun _ _ (e_Option (e_Parenthesized e_ArgumentList)) _ = Ok _ _ |- _ => apply K_opt_args in K as [? ?]
    | K : krun _ _ (e_Generics e_AttributedType) _ = Ok _ _ |- _ => apply K_one in K as [? ?]
    | K : krun _ _ (e_Generics (e_triple e_AttributedType Comma e_AttributedType)) _ = Ok _ _ |- _ => apply K_pair in K as [? ?]
    | K : krun _ _ (e_Option e_StringifierOrInheritOrStatic) _ = Ok _ _ |- _ => apply K_opt_SIS in K
    | K : krun _ _ (e_Option (T_ ReadOnly)) _ = Ok _ _ |- _ => apply (S_opt_kw _ _ _ _ _ "readonly") in K as [? _]; [|reflexivity]
    | K : krun _ _ (e_Option e_Inheritance) _ = Ok _ _ |- _ => apply K_opt_inheritance in K
    end.
  Ltac kmem H := kinv H; subst; ksnd.
  Ltac kconc := norm; repeat (progress (conc; try (eapply Conc_app; [apply K_const_toks|]))).

  Lemma S_ConstMember i r m : kr e_ConstMember i = Ok r m ->
    Conc (show_ConstMember m) i r /\ match m with mkConstMember a _ _ _ => wf_attributes a end.
  Proof. unfold e_ConstMember. intros H. kmem H. split; auto. unfold show_ConstMember. kconc. Qed.
  Lemma S_StringifierMember i r m : kr e_StringifierMember i = Ok r m ->
    Conc (show_StringifierMember m) i r /\ match m with mkStringifierMember a => wf_attributes a end.
  Proof. unfold e_StringifierMember. intros H. kmem H. split; auto. unfold show_StringifierMember. kconc. Qed.

  Lemma S_Operation i r m j k : kr e_OperationInterfaceMember i = Ok r m ->
    kr e_ConstructorInterfaceMember i = Err (Error j k) ->
    Conc (show_OperationInterfaceMember m) i r /\
    match m with mkOperationInterfaceMember a _ _ r _ args => wf_attributes a /\ wf_ReturnType r /\ wf_args args end.
  Proof.
    unfold e_OperationInterfaceMember. intros H Hc. kinv H. subst.
    kname e_attributes Ka. kname (e_Option e_StringifierOrStatic) Km. kname (e_Option e_Special) Ks. kname e_ReturnType Kr.
    kname (e_Option e_Identifier) Ki. kname (e_Parenthesized e_ArgumentList) Kargs.
    match type of Kr with krun _ _ _ _ = Ok _ ?t => rename t into rt end.
    match type of Ki with krun _ _ _ _ = Ok _ ?t => rename t into nm end.
    match type of Km with krun _ _ _ _ = Ok _ ?t => rename t into md end.
    match type of Ks with krun _ _ _ _ = Ok _ ?t => rename t into sp end.
    apply K_opt_SS in Km as [Km Km']. apply K_opt_Special in Ks as [Ks Ks'].
    match type of Kr with krun _ _ _ ?i = _ => assert (Hb : not_head (operation_bad md sp rt nm) i) end.
    { unfold operation_bad. destruct sp as [sp|]; [apply not_head_nil|]. destruct (Ks' eq_refl) as [-> Ks2].
      apply not_head_app; auto. destruct md as [md|]; [apply not_head_nil|]. destruct (Km' eq_refl) as [-> Km2].
      apply not_head_app; auto. destruct nm as [nm|]; [apply not_head_nil|].
      destruct (plain_identifier rt) eqn:Ep; [|apply not_head_nil]. apply not_head_cons; [|apply not_head_nil].
      intros r' ->. apply kr_opt in Ki as [-> _].
      apply (K_ReturnType []) in Kr as (Kr & _); [|apply not_head_nil].
      destruct rt as [|[[|nt]|]]; try discriminate. destruct nt as [| | | | | | | | | | | | | | | | | | | | | | | | | | | |m]; try discriminate.
      destruct m as [x [q|]]; try discriminate. cbn in Kr.
      inversion Kr as [| | | | | |bad x' g i' r2 _ _ Kr'| | | | | |]; subst. inversion Kr'; subst.
      unfold e_ConstructorInterfaceMember in Hc. rewrite run_bind in Hc. unfold bind in Hc. rewrite Ka in Hc.
      rewrite run_bind in Hc. unfold bind in Hc. kcomp_in Hc.
      rewrite Kargs in Hc. kcomp_in Hc. discriminate. }
    destruct (K_ReturnType _ _ _ _ Kr Hb) as (Kr1 & Kr2 & Kr3).
    apply (K_opt_name (return_ends_long rt)) in Ki; auto.
    apply K_attributes in Ka as [Ka Kaw]. apply K_args in Kargs as [Kargs Kargw]. split; auto.
    unfold show_OperationInterfaceMember. conc.
  Qed.

  Lemma S_InterfaceMember i r m : kr e_InterfaceMember i = Ok r m -> Conc (show_InterfaceMember m) i r /\ wf_InterfaceMember m.
  Proof.
    unfold e_InterfaceMember. intros H. kalt H; [|kalt H; [|kalt H; [|kalt H; [|kalt H; [|kalt H; [|kalt H; [|kalt H; [|kalt H; [|kalt H]]]]]]]]].
    - apply S_ConstMember in H. destruct a; exact H.
    - unfold e_AttributeInterfaceMember in H. kmem H. split; [|split; auto]. cbn [show_InterfaceMember show_AttributeInterfaceMember]. kconc.
    - unfold e_ConstructorInterfaceMember in H. kmem H. split; [|split; auto]. cbn [show_InterfaceMember show_ConstructorInterfaceMember]. kconc.
    - eapply S_Operation in H; [|eassumption]. destruct a; exact H.
    - unfold e_IterableInterfaceMember, e_SingleTypedIterable, e_DoubleTypedIterable in H. kalt H; [|kalt H; [|kalt H]];
        kmem H; (split; [|split; auto]); cbn [show_InterfaceMember show_IterableInterfaceMember]; kconc.
    - unfold e_AsyncIterableInterfaceMember, e_SingleTypedAsyncIterable, e_DoubleTypedAsyncIterable in H. kalt H; [|kalt H; [|kalt H]];
        kmem H; (split; [|split; auto]); cbn [show_InterfaceMember show_AsyncIterableInterfaceMember]; kconc.
    - unfold e_MaplikeInterfaceMember in H. kmem H. split; [|split; auto]. cbn [show_InterfaceMember show_MaplikeInterfaceMember]. kconc.
    - unfold e_SetlikeInterfaceMember in H. kmem H. split; [|split; auto]. cbn [show_InterfaceMember show_SetlikeInterfaceMember]. kconc.
    - apply S_StringifierMember in H. destruct a; exact H.
  Qed.
  Lemma S_MixinMember i r m : kr e_MixinMember i = Ok r m -> Conc (show_MixinMember m) i r /\ wf_MixinMember m.
  Proof.
    unfold e_MixinMember. intros H. kalt H; [|kalt H; [|kalt H; [|kalt H; [|kalt H]]]].
    - apply S_ConstMember in H. destruct a; exact H.
    - unfold e_OperationMixinMember in H. kmem H. kname (e_Option (T_ Stringifier)) Ks. kname e_ReturnType Kr.
      kname (e_Option e_Identifier) Ki. apply (S_opt_kw _ _ _ _ _ "stringifier") in Ks as [Ks Ks']; [|reflexivity].
      match type of Ks with Conc (opt_kw ?t _) _ _ => rename t into sf end.
      apply (K_ReturnType (unless sf ["stringifier"%string])) in Kr as (Kr1 & Kr2 & Kr3).
      + eapply K_opt_name in Ki; [|exact Kr3]. split; [|split; auto]. cbn [show_MixinMember]. kconc.
      + destruct sf; [apply not_head_nil|]. destruct (Ks' eq_refl) as [-> K]. apply not_head_cons; auto. apply not_head_nil.
    - unfold e_AttributeMixinMember in H. kmem H. kname (e_Option (T_ Stringifier)) Ks.
      apply (S_opt_kw _ _ _ _ _ "stringifier") in Ks as [Ks _]; [|reflexivity].
      split; [|split; auto]. cbn [show_MixinMember]. kconc.
    - apply S_StringifierMember in H. destruct a; exact H.
  Qed.
  Lemma S_NamespaceMember i r m : kr e_NamespaceMember i = Ok r m -> Conc (show_NamespaceMember m) i r /\ wf_NamespaceMember m.
  Proof.
    unfold e_NamespaceMember. intros H. kalt H; [|kalt H; [|kalt H; [|kalt H]]].
    - unfold e_ConstNamespaceMember in H. kmem H. split; auto. cbn [show_NamespaceMember]. kconc.
    - unfold e_OperationNamespaceMember in H. kmem H. kname e_ReturnType Kr.
      kname (e_Option e_Identifier) Ki. apply (K_ReturnType []) in Kr as (Kr1 & Kr2 & Kr3); [|apply not_head_nil].
      eapply K_opt_name in Ki; [|exact Kr3]. split; [|split; auto]. cbn [show_NamespaceMember]. kconc.
    - unfold e_AttributeNamespaceMember in H. kmem H. split; [|split; auto]. cbn [show_NamespaceMember]. kconc.
  Qed.
  Lemma S_DictionaryMember i r m : kr e_DictionaryMember i = Ok r m -> Conc (show_DictionaryMember m) i r /\ wf_DictionaryMember m.
  Proof.
    unfold e_DictionaryMember. intros H. kmem H. kname (e_Option (T_ Required)) Ks. kname e_Type Kt.
    kname (e_Option e_Default) Kd. apply S_opt_Default in Kd. apply (S_opt_kw _ _ _ _ _ "required") in Ks as [Ks Ks']; [|reflexivity].
    match type of Ks with Conc (opt_kw ?t _) _ _ => rename t into sf end.
    apply (K_Type (unless sf ["required"%string])) in Kt as (Kr1 & Kr2 & Kr3).
    - split; [|split; auto]. cbn [show_DictionaryMember]. kconc.
    - destruct sf; [apply not_head_nil|]. destruct (Ks' eq_refl) as [-> K]. apply not_head_cons; auto. apply not_head_nil.
  Qed.

  (** [typedef includes x;] is a type definition. *)
  Lemma typedef_word w e x rest i j a k1 k2 : w = "includes"%string \/ w = "implements"%string -> kr e_attributes i = Ok j a ->
    j = kw "typedef" :: kw w :: TName e x :: TPunct ";" :: rest ->
    kr e_TypedefDefinition i = Err (Error k1 k2) -> False.
  Proof.
    intros Hw Ka -> H. unfold e_TypedefDefinition in H. rewrite run_bind in H. unfold bind in H. rewrite Ka in H.
    rewrite run_bind in H. unfold bind in H. kcomp_in H.
    assert (E : exists t, kr e_AttributedType (kw w :: TName e x :: TPunct ";" :: rest) = Ok (TName e x :: TPunct ";" :: rest) t).
    { eexists. destruct Hw as [-> | ->]; destruct n; reflexivity. }
    destruct E as [t E]. rewrite E in H. unfold e_Identifier in H. kcomp_in H. discriminate.
  Qed.

  Lemma S_Definition i r d : kr e_Definition i = Ok r d -> Conc (show_Definition d) i r /\ wf_Definition d.
  Proof.
    unfold e_Definition. intros H.
    Ltac body f w S := match goal with K : krun _ _ (e_Braced _) _ = Ok _ _ |- _ => apply (K_body _ f w _ _ _ _ S) in K as [? ?] end.
    kalt H; [unfold e_CallbackDefinition in H; kmem H|].
    { kname e_ReturnType Kr. apply (K_ReturnType []) in Kr as (Kr1 & Kr2 & Kr3); [|apply not_head_nil].
      split; [|split; auto]. cbn [show_Definition]. kconc. }
    kalt H; [unfold e_CallbackInterfaceDefinition in H; kmem H; body show_InterfaceMember wf_InterfaceMember S_InterfaceMember|].
    { split; [|split; auto]. cbn [show_Definition]. kconc. }
    kalt H; [unfold e_InterfaceDefinition in H; kmem H; body show_InterfaceMember wf_InterfaceMember S_InterfaceMember|].
    { split; [|split; auto]. cbn [show_Definition]. kconc. }
    kalt H; [unfold e_InterfaceMixinDefinition in H; kmem H; body show_MixinMember wf_MixinMember S_MixinMember|].
    { split; [|split; auto]. cbn [show_Definition]. kconc. }
    kalt H; [unfold e_NamespaceDefinition in H; kmem H; body show_NamespaceMember wf_NamespaceMember S_NamespaceMember|].
    { split; [|split; auto]. cbn [show_Definition]. kconc. }
    kalt H; [unfold e_DictionaryDefinition in H; kmem H; body show_DictionaryMember wf_DictionaryMember S_DictionaryMember|].
    { split; [|split; auto]. cbn [show_Definition]. kconc. }
    kalt H; [unfold e_PartialInterfaceDefinition in H; kmem H; body show_InterfaceMember wf_InterfaceMember S_InterfaceMember|].
    { split; [|split; auto]. cbn [show_Definition]. kconc. }
    kalt H; [unfold e_PartialInterfaceMixinDefinition in H; kmem H; body show_MixinMember wf_MixinMember S_MixinMember|].
    { split; [|split; auto]. cbn [show_Definition]. kconc. }
    kalt H; [unfold e_PartialDictionaryDefinition in H; kmem H; body show_DictionaryMember wf_DictionaryMember S_DictionaryMember|].
    { split; [|split; auto]. cbn [show_Definition]. kconc. }
    kalt H; [unfold e_PartialNamespaceDefinition in H; kmem H; body show_NamespaceMember wf_NamespaceMember S_NamespaceMember|].
    { split; [|split; auto]. cbn [show_Definition]. kconc. }
    kalt H; [unfold e_EnumDefinition, e_Braced, e_EnumValueList, e_PunctuatedNonEmpty in H; kmem H|].
    { match goal with K : krun _ _ (PSepNonEmpty _ _) _ = Ok _ _ |- _ =>
        apply (kr_sepne n (PTerm TmStringLit) (fun s i r => Conc [GStr s] i r /\ True)) in K end.
      2:{ intros i2 r2 s K. kinv K. split; auto. conc. }
      match goal with K : match ?l with [] => False | _ => _ end |- _ => destruct l as [|s l]; [destruct K|destruct K as (jj & [K1 _] & K2)] end.
      apply (SepChained_Conc _ (fun s => [GStr s]) (fun _ => True) _ (GP ",")) in K2 as [K2 _];
        [|intros g i2 r2 K; cbn; constructor; exact K].
      split; [|split; auto; discriminate]. cbn [show_Definition].
      change (fun s0 : StringLit => [GStr s0]) with (fun s0 : text => [GStr s0]).
      rewrite join_cons. inversion K1 as [| | | | | | | | | | | |s' g i' r' K3]; subst. inversion K3; subst.
      match goal with K : krun _ _ (POpt (T_ Comma)) _ = Ok _ _ |- _ => apply kr_opt in K; rename K into Kc end.
      match type of Kc with match ?o with _ => _ end => destruct o as [u|] end.
      - apply kr_term in Kc. subst. kconc. apply Conc_comma. conc.
      - destruct Kc as [E _]. rewrite <- E in K2. kconc. apply Conc_nocomma. conc. }
    kalt H; [unfold e_TypedefDefinition in H; kmem H|].
    { split; [|split; auto]. cbn [show_Definition]. kconc. }
    match goal with K : krun _ _ e_TypedefDefinition _ = Err _ |- _ => rename K into Htd end.
    kalt H; [unfold e_IncludesStatementDefinition in H; kinv H; subst|].
    { kname e_attributes Ka. pose proof Ka as Ka'. apply K_attributes in Ka as [Ka Kaw]. split; auto. cbn [show_Definition].
      norm. eapply Conc_app; [eassumption|]. apply Conc_ident; [|conc]. intros -> [E|[]]. rewrite <- E in Ka'.
      eapply (typedef_word "includes"); [left|exact Ka'|..]; eauto. }
    kalt H; [unfold e_ImplementsDefinition in H; kinv H; subst|kalt H].
    { kname e_attributes Ka. pose proof Ka as Ka'. apply K_attributes in Ka as [Ka Kaw]. split; auto. cbn [show_Definition].
      norm. eapply Conc_app; [eassumption|]. apply Conc_ident; [|conc]. intros -> [E|[]]. rewrite <- E in Ka'.
      eapply (typedef_word "implements"); [right|exact Ka'|..]; eauto. }
  Qed.

  Lemma S_Definitions i r d : kr e_Definitions i = Ok r d -> Conc (show_Definitions d) i r /\ wf_Definitions d.
  Proof. apply S_Vec. exact S_Definition. Qed.
End Members.
