(** * The terminals of the grammar, on text and on tokens. *)
From Coq Require Import String Ascii NArith Arith Bool List Lia.
From Verif Require Import Nom Lex Ast Grammar Spec LexFacts NumFacts TokFacts RunFacts.
Import ListNotations.
Open Scope list_scope.

(** ** Suffixes, errors and termination of the terminals on text *)
Definition Suf (r i : text) : Prop := exists x, i = x ++ r.
Lemma Suf_refl i : Suf i i. Proof. exists []; auto. Qed.
Lemma Suf_trans i j k : Suf j i -> Suf k j -> Suf k i.
Proof. intros [x ->] [y ->]. exists (x ++ y). apply app_assoc. Qed.
Lemma Suf_app x i : Suf i (x ++ i). Proof. exists x; auto. Qed.
Lemma Suf_cons c i : Suf i (c :: i). Proof. exists [c]; auto. Qed.
Global Hint Resolve Suf_refl Suf_app Suf_cons : suf.

(** Returns, with a suffix, or with a plain error at a suffix. *)
Definition Fine {A} (p : parser text A) : Prop := forall i,
  match p i with
  | Ok r _ => Suf r i
  | Err (Error pos _) => Suf pos i
  | _ => False
  end.
Lemma Fine_ret A (a : A) : Fine (ret a). Proof. intros i; cbn; auto with suf. Qed.
Lemma Fine_bind A B (p : parser text A) (f : A -> parser text B) : Fine p -> (forall a, Fine (f a)) -> Fine (bind p f).
Proof.
  intros Hp Hf i. unfold bind. specialize (Hp i). destruct (p i) as [r a|[]|]; auto.
  specialize (Hf a r). destruct (f a r) as [r' b|[]|]; eauto using Suf_trans.
Qed.
Lemma Fine_or A (p q : parser text A) : Fine p -> Fine q -> Fine (alt_or p q).
Proof. intros Hp Hq i. unfold alt_or. specialize (Hp i). destruct (p i) as [r a|[]|]; auto. apply Hq. Qed.
Lemma Fine_end A : Fine (@alt_end text A). Proof. intros i; cbn; auto with suf. Qed.
Lemma Fine_opt A (p : parser text A) : Fine p -> Fine (opt p).
Proof. intros Hp i. unfold opt. specialize (Hp i). destruct (p i) as [r a|[]|]; auto with suf. Qed.
Lemma Fine_map A B (f : A -> B) (p : parser text A) : Fine p -> Fine (pmap f p).
Proof. intros Hp. apply Fine_bind; auto. intros; apply Fine_ret. Qed.
Lemma Fine_tag t : Fine (tag t).
Proof.
  intros i. destruct (tag t i) eqn:E.
  - apply tag_ok in E as [-> ->]. auto with suf.
  - unfold tag in E. destruct (strip_prefix t i); [discriminate|]. injection E as <-. auto with suf.
  - unfold tag in E. destruct (strip_prefix t i); discriminate.
Qed.
Lemma Fine_pchar c : Fine (pchar c).
Proof. intros i. unfold pchar. destruct i as [|d i]; auto with suf. destruct (N.eqb d c); auto with suf. Qed.
Lemma Fine_one_of c : Fine (one_of c).
Proof. intros i. unfold one_of. destruct i as [|d i]; auto with suf. destruct (existsb _ _); auto with suf. Qed.
Lemma Fine_take_while f : Fine (take_while f).
Proof.
  intros i. destruct (take_while f i) eqn:E.
  - apply take_while_ok in E as [-> _]. auto with suf.
  - unfold take_while in E. destruct (span f i); discriminate.
  - unfold take_while in E. destruct (span f i); discriminate.
Qed.
Lemma Fine_take_while1 f : Fine (take_while1 f).
Proof.
  intros i. destruct (take_while1 f i) eqn:E.
  - apply take_while1_ok in E as [-> _]. auto with suf.
  - unfold take_while1 in E. destruct (span f i) as [[] ?]; [injection E as <-|discriminate]. auto with suf.
  - unfold take_while1 in E. destruct (span f i) as [[] ?]; discriminate.
Qed.
Lemma Fine_recognize A (p : parser text A) : Fine p -> Fine (recognize p).
Proof. intros Hp i. unfold recognize. specialize (Hp i). destruct (p i) as [r a|[]|]; auto. Qed.
Lemma Fine_sp : Fine sp.
Proof. intros i. destruct (sp_spec i) as (w & r & -> & -> & _). auto with suf. Qed.
Lemma Fine_ws A (p : parser text A) : Fine p -> Fine (ws p).
Proof. intros Hp. unfold ws. auto using Fine_bind, Fine_sp, Fine_ret. Qed.
Lemma Fine_ident_tag t : Fine (ident_tag t).
Proof.
  intros i. unfold ident_tag. pose proof (Fine_tag t i) as H. destruct (tag t i) as [r v|[]|]; auto.
  destruct r; auto. cbv zeta. destruct (_ || _ || _); auto with suf.
Qed.
Global Hint Resolve Fine_ret Fine_bind Fine_or Fine_end Fine_opt Fine_map Fine_tag Fine_pchar Fine_one_of Fine_take_while
  Fine_take_while1 Fine_recognize Fine_sp Fine_ws Fine_ident_tag : fine.

Lemma Fine_term t : Fine (p_term t).
Proof. unfold p_term. destruct (term_is_name t); auto with fine. Qed.
Global Hint Resolve Fine_term : fine.
Lemma Fine_Identifier : Fine p_Identifier.
Proof. unfold p_Identifier. auto 10 with fine. Qed.
Lemma Fine_StringLit : Fine p_StringLit.
Proof. unfold p_StringLit. auto 10 with fine. Qed.
Lemma Fine_exponent : Fine exponent.
Proof. unfold exponent. auto 15 with fine. Qed.
Global Hint Resolve Fine_exponent : fine.
Lemma Fine_FloatValueLit : Fine p_FloatValueLit.
Proof. unfold p_FloatValueLit. auto 30 with fine. Qed.
Lemma Fine_DecLit : Fine p_DecLit. Proof. unfold p_DecLit. auto 15 with fine. Qed.
Lemma Fine_HexLit : Fine p_HexLit. Proof. unfold p_HexLit. auto 15 with fine. Qed.
Lemma Fine_OctLit : Fine p_OctLit. Proof. unfold p_OctLit. auto 15 with fine. Qed.
Global Hint Resolve Fine_Identifier Fine_StringLit Fine_FloatValueLit Fine_DecLit Fine_HexLit Fine_OctLit : fine.
Lemma Fine_IntegerLit : Fine p_IntegerLit. Proof. unfold p_IntegerLit. auto 15 with fine. Qed.
Lemma Fine_FloatLit : Fine p_FloatLit. Proof. unfold p_FloatLit. auto 15 with fine. Qed.
Lemma Fine_BooleanLit : Fine p_BooleanLit. Proof. unfold p_BooleanLit. auto 15 with fine. Qed.
Global Hint Resolve Fine_IntegerLit Fine_FloatLit Fine_BooleanLit : fine.
Lemma Fine_DefaultValue : Fine p_DefaultValue.
Proof. unfold p_DefaultValue, p_EmptyArrayLit, p_EmptyDictionaryLit. auto 25 with fine. Qed.
Lemma Fine_ConstValue : Fine p_ConstValue.
Proof. unfold p_ConstValue. auto 15 with fine. Qed.
Global Hint Resolve Fine_DefaultValue Fine_ConstValue : fine.
Lemma Fine_text_sem A (t : terminal A) : Fine (text_sem A t).
Proof. destruct t; cbn; auto with fine. Qed.

Lemma Fine_Good A (p : parser text A) : Fine p -> Good Suf p.
Proof. intros H i. specialize (H i). destruct (p i) as [|[]|]; auto. Qed.
Lemma Fine_not_Diverge A (p : parser text A) i : Fine p -> p i <> Diverge.
Proof. intros H E. specialize (H i). rewrite E in H. auto. Qed.
(** A terminal succeeds or fails with a plain error. *)
Lemma Fine_cases A (p : parser text A) i : Fine p -> (exists r v, p i = Ok r v) \/ (exists q k, p i = Err (Error q k)).
Proof. intros H. specialize (H i). destruct (p i) as [|[]|]; eauto; contradiction. Qed.

(** ** Reading one token *)


Lemma At_det t t' i r r' : At t i r -> At t' i r' -> t = t' /\ r = r'.
Proof.
  intros (w & x & -> & Hw & Hv & He & Hx & Hr) (w' & x' & E & Hw' & Hv' & He' & Hx' & Hr').
  destruct (Blank_unique _ Hw _ _ _ Hw' (spell_NoBlank _ _ Hv) (spell_NoBlank _ _ Hv') E) as [-> E'].
  destruct (tok_det _ _ _ _ Hv Hv' He He' E') as [-> E2].
  destruct (Blank_unique _ Hx _ _ _ Hx' Hr Hr' E2) as [_ ->]. auto.
Qed.
Lemma At_shorter t i r : At t i r -> length r < length i.
Proof.
  intros (w & x & -> & _ & Hv & _). apply spell_nonempty in Hv. rewrite !app_length.
  destruct (spell t); [congruence|]. cbn. lia.
Qed.

(** The token a terminal symbol of the grammar stands for. *)
Definition term_tok (t : term) : tok :=
  match t with
  | NegInfinity => TNegInf
  | _ => if term_is_name t then TName false (str (term_text t)) else TPunct (term_text t)
  end.
Definition not_minus_dot (t : term) : Prop := match t with Minus | Dot => False | _ => True end.

Lemma NameLex_dec s : match s with [] => false | c :: w => is_ascii_alphabetic c && forallb is_ident_char w end = true ->
  NameLex s.
Proof.
  destruct s as [|c w]; [discriminate|]. intros H. apply andb_true_iff in H as [H1 H2]. exists c, w.
  repeat split; auto. apply is_letter_spec; auto. apply (forallb_Forall _ _ is_ident_char_spec); auto.
Qed.
Lemma term_tok_valid t : not_minus_dot t -> valid_tok (term_tok t).
Proof.
  destruct t; cbn [not_minus_dot term_tok term_is_name term_text valid_tok]; intros H;
    try contradiction; try exact Logic.I; try (apply NameLex_dec; reflexivity); cbn; tauto.
Qed.
Lemma term_tok_spell t : spell (term_tok t) = str (term_text t).
Proof. destruct t; reflexivity. Qed.

Lemma p_term_At t i r v : not_minus_dot t -> p_term t i = Ok r v <-> At (term_tok t) i r.
Proof.
  intros Ht. pose proof (term_tok_valid t Ht) as Hv. unfold At. rewrite term_tok_spell.
  destruct (term_is_name t) eqn:E.
  - rewrite p_term_name_ok by auto.
    assert (He : forall x, ends_ok (term_tok t) x <-> name_ends x).
    { intros x. destruct t; try discriminate E; reflexivity. }
    split.
    + intros (w & w' & -> & H). exists w, w'. rewrite He. intuition.
    + intros (w & w' & -> & H). exists w, w'. rewrite He in H. intuition.
      rewrite <- term_tok_spell. apply spell_NoBlank; auto.
  - rewrite p_term_punct_ok by auto.
    assert (He : forall x, ends_ok (term_tok t) x).
    { intros x. destruct t; try discriminate E; exact Logic.I. }
    split.
    + intros (w & w' & -> & H). exists w, w'. intuition.
    + intros (w & w' & -> & H). exists w, w'. intuition.
      rewrite <- term_tok_spell. apply spell_NoBlank; auto.
Qed.

Lemma p_Identifier_At i r n : p_Identifier i = Ok r n <-> exists e, At (TName e n) i r.
Proof.
  rewrite p_Identifier_ok. split.
  - intros (w & u & w' & -> & Hw & [->| ->] & Hn & He & Hw' & Hr).
    + exists false, w, w'. cbn. auto 10.
    + exists true, w, w'. cbn. auto 10.
  - intros ([] & w & w' & -> & Hw & Hn & He & Hw' & Hr).
    + exists w, [95%N], w'. cbn in *. auto 10.
    + exists w, [], w'. cbn in *. auto 10.
Qed.
Lemma p_StringLit_At i r s : p_StringLit i = Ok r s <-> At (TStr s) i r.
Proof.
  rewrite p_StringLit_ok. split.
  - intros (w & w' & -> & Hw & Hn & Hw' & Hr). exists w, w'. cbn. rewrite <- app_assoc. cbn. auto 10.
  - intros (w & w' & -> & Hw & Hn & _ & Hw' & Hr). exists w, w'. cbn in *. rewrite <- app_assoc. cbn. auto 10.
Qed.
Lemma p_FloatValueLit_At i r s : p_FloatValueLit i = Ok r s <-> At (TFloat s) i r.
Proof.
  rewrite p_FloatValueLit_longest. split.
  - intros (w & w' & -> & Hw & Hl & Hw' & Hr). apply float_longest in Hl as [H1 H2]. exists w, w'. cbn. auto 10.
  - intros (w & w' & -> & Hw & Hn & He & Hw' & Hr). exists w, w'. cbn in *. split; auto. split; auto. split; auto.
    apply float_longest; auto.
Qed.

Lemma not_ok_err A (p : parser text A) i : Fine p -> (forall r v, p i <> Ok r v) -> exists q k, p i = Err (Error q k).
Proof. intros Hp H. destruct (Fine_cases _ _ i Hp) as [(r & v & E)|E]; auto. edestruct H; eauto. Qed.

(** Where no float can be read, [IntegerLit] reads an integer token. *)
Lemma p_IntegerLit_At i r l : (forall s r', p_FloatValueLit i <> Ok r' s) -> p_IntegerLit i = Ok r l <-> At (TInt l) i r.
Proof.
  intros Hf.
  assert (Hnf : forall w s y, i = w ++ s ++ y -> Blank w -> ~ FloatLex s).
  { intros w s y E Hw Hs. assert (He : exists q k, p_FloatValueLit i = Err (Error q k)).
    { apply not_ok_err; auto with fine. }
    apply (ws_num_no _ FloatLex (fun s H => or_introl H) float_num _ _ _ _ He E Hw Hs). }
  assert (Hnf' : forall w s w' r', i = w ++ s ++ w' ++ r' -> Blank w -> forall x y, s ++ w' ++ r' = x ++ y -> ~ FloatLex x).
  { intros w s w' r' E Hw x y E'. eapply Hnf; eauto. rewrite E, E'. reflexivity. }
  unfold p_IntegerLit, alt_or, pmap, bind, ret, alt_end. split.
  - destruct (p_DecLit i) as [r1 s1|[]|] eqn:E1; try discriminate.
    { intros [= <- <-]. apply p_DecLit_longest in E1 as (w & w' & E & Hw & Hl & Hw' & Hr).
      apply dec_longest in Hl as [H1 H2]; eauto. exists w, w'. cbn. auto 10. }
    destruct (p_HexLit i) as [r1 s1|[]|] eqn:E2; try discriminate.
    { intros [= <- <-]. apply p_HexLit_longest in E2 as (w & w' & E & Hw & Hl & Hw' & Hr).
      apply hex_longest in Hl as [H1 H2]; eauto. exists w, w'. cbn. auto 10. }
    destruct (p_OctLit i) as [r1 s1|[]|] eqn:E3; try discriminate.
    intros [= <- <-]. apply p_OctLit_longest in E3 as (w & w' & E & Hw & Hl & Hw' & Hr).
    apply oct_longest in Hl as [H1 H2]; eauto. exists w, w'. cbn. auto 10.
    intros x y Ex Hx.
    apply (ws_num_no _ HexLex (fun s H => or_intror (or_intror (or_introl H))) hex_num i w x y); eauto.
    rewrite E, Ex. reflexivity.
  - intros (w & w' & E & Hw & Hn & He & Hw' & Hr).
    assert (Hdec : forall s1 r1, DecLex s1 -> p_DecLit i = Ok r1 s1 -> True) by auto. clear Hdec.
    destruct l as [s|s|s]; cbn in E, Hn, He.
    + assert (E1 : p_DecLit i = Ok r s).
      { apply p_DecLit_longest. exists w, w'. repeat split; auto. intros s' r' E' H'.
        apply (dec_longest s (w' ++ r)) with (r' := r'); eauto. }
      rewrite E1. reflexivity.
    + assert (E1 : exists q k, p_DecLit i = Err (Error q k)).
      { apply not_ok_err; auto with fine. intros r1 s1 E1.
        apply p_DecLit_longest in E1 as (w1 & w1' & E1 & Hw1 & Hl & _). rewrite E in E1.
        assert (Hd : DecLex s1) by apply Hl.
        destruct (Blank_unique _ Hw _ _ _ Hw1 (NumLex_NoBlank _ _ (or_intror (or_intror (or_introl Hn))))
                    (NumLex_NoBlank _ _ (or_intror (or_introl Hd))) E1) as [<- E2].
        apply prefix_cases in E2 as [(z & -> & _)|(z & -> & _)].
        - apply (dec_not_hex (s ++ z) s z); auto.
        - apply (dec_not_hex s1 (s1 ++ z) z); auto. }
      destruct E1 as (q & k & ->).
      assert (E1 : p_HexLit i = Ok r s).
      { apply p_HexLit_longest. exists w, w'. repeat split; auto. intros s' r' E' H'.
        apply (hex_longest s (w' ++ r)) with (r' := r'); eauto. }
      rewrite E1. reflexivity.
    + assert (E1 : exists q k, p_DecLit i = Err (Error q k)).
      { apply not_ok_err; auto with fine. intros r1 s1 E1.
        apply p_DecLit_longest in E1 as (w1 & w1' & E1 & Hw1 & Hl & _). rewrite E in E1.
        assert (Hd : DecLex s1) by apply Hl.
        destruct (Blank_unique _ Hw _ _ _ Hw1 (NumLex_NoBlank _ _ (or_intror (or_intror (or_intror Hn))))
                    (NumLex_NoBlank _ _ (or_intror (or_introl Hd))) E1) as [<- E2].
        apply prefix_cases in E2 as [(z & -> & _)|(z & -> & _)].
        - apply (dec_not_oct (s ++ z) s z); auto.
        - apply (dec_not_oct s1 (s1 ++ z) z); auto. }
      destruct E1 as (q & k & ->).
      assert (Hnh : forall x y, s ++ w' ++ r = x ++ y -> ~ HexLex x) by (apply oct_no_hex; auto).
      assert (E1 : exists q k, p_HexLit i = Err (Error q k)).
      { apply not_ok_err; auto with fine. intros r1 s1 E1.
        apply p_HexLit_longest in E1 as (w1 & w1' & E1 & Hw1 & Hl & _). rewrite E in E1.
        assert (Hd : HexLex s1) by apply Hl.
        destruct (Blank_unique _ Hw _ _ _ Hw1 (NumLex_NoBlank _ _ (or_intror (or_intror (or_intror Hn))))
                    (NumLex_NoBlank _ _ (or_intror (or_intror (or_introl Hd)))) E1) as [<- E2].
        eapply Hnh; eauto. }
      destruct E1 as (q' & k' & ->).
      assert (E1 : p_OctLit i = Ok r s).
      { apply p_OctLit_longest. exists w, w'. repeat split; auto. intros s' r' E' H'.
        apply (oct_longest s (w' ++ r)) with (r' := r'); eauto. }
      rewrite E1. reflexivity.
Qed.

(** ** Literals *)

(** The tokens of a literal. *)
Definition bool_toks (b : bool) : list tok := [TName false (str (if b then "true" else "false")%string)].
Definition float_toks (f : FloatLit) : list tok :=
  match f with
  | FloatLit_Value s => [TFloat s]
  | FloatLit_NegInfinity => [TNegInf]
  | FloatLit_Infinity => [TName false (str "Infinity")]
  | FloatLit_NaN => [TName false (str "NaN")]
  end.
Definition default_toks (v : DefaultValue) : list tok :=
  match v with
  | DefaultValue_Boolean b => bool_toks b
  | DefaultValue_EmptyArray => [TPunct "["; TPunct "]"]
  | DefaultValue_EmptyDictionary => [TPunct "{"; TPunct "}"]
  | DefaultValue_Float f => float_toks f
  | DefaultValue_Integer l => [TInt l]
  | DefaultValue_Null => [TName false (str "null")]
  | DefaultValue_String s => [TStr s]
  end.
Definition const_toks (v : ConstValue) : list tok :=
  match v with
  | ConstValue_Boolean b => bool_toks b
  | ConstValue_Float f => float_toks f
  | ConstValue_Integer l => [TInt l]
  | ConstValue_Null => [TName false (str "null")]
  end.

Lemma Ats_one t i r : Ats [t] i r <-> At t i r.
Proof. cbn. split; [intros (j & H & <-); auto|eauto]. Qed.

(** A parser that reads tokens: it succeeds exactly on the tokens [toks v], with value [v]. *)
Definition Reads {A} (p : parser text A) (toks : A -> list tok) : Prop :=
  Fine p /\ forall i r v, p i = Ok r v <-> Ats (toks v) i r.

Lemma term_Ats t i r v : not_minus_dot t -> p_term t i = Ok r v <-> Ats [term_tok t] i r.
Proof. intros H. rewrite Ats_one. apply p_term_At; auto. Qed.

Lemma Reads_bool : Reads p_BooleanLit bool_toks.
Proof.
  split; [auto with fine|]. intros i r v. unfold p_BooleanLit, alt_or, pmap, bind, ret, alt_end.
  assert (Ht : forall r, p_term True_ i = Ok r tt <-> Ats (bool_toks true) i r) by (intros; apply term_Ats; exact Logic.I).
  assert (Hf : forall r, p_term False_ i = Ok r tt <-> Ats (bool_toks false) i r) by (intros; apply term_Ats; exact Logic.I).
  destruct (Fine_cases _ _ i (Fine_term True_)) as [(r1 & [] & E1)|(q & k & E1)]; rewrite E1.
  - split.
    + intros [= <- <-]. apply Ht; auto.
    + intros H. apply Ht in E1. destruct v.
      * apply Ht in H. apply Ht in E1. congruence.
      * apply Ats_one in H. apply Ats_one in E1. destruct (At_det _ _ _ _ _ H E1). discriminate.
  - destruct (Fine_cases _ _ i (Fine_term False_)) as [(r2 & [] & E2)|(q' & k' & E2)]; rewrite E2.
    + split.
      * intros [= <- <-]. apply Hf; auto.
      * intros H. destruct v.
        -- apply Ht in H. congruence.
        -- apply Hf in H. congruence.
    + split; [discriminate|]. destruct v; intros H; [apply Ht in H|apply Hf in H]; congruence.
Qed.

(** Alternatives that read different first tokens. *)
Lemma Ats_first t ts t' ts' i r r' : Ats (t :: ts) i r -> Ats (t' :: ts') i r' -> t = t'.
Proof. intros (j & H & _) (j' & H' & _). eapply At_det; eauto. Qed.
Lemma Ats_det ts : forall i r r', Ats ts i r -> Ats ts i r' -> r = r'.
Proof.
  induction ts as [|t ts IH]; cbn; intros i r r'; [congruence|].
  intros (j & H & H') (j' & H1 & H1'). destruct (At_det _ _ _ _ _ H H1) as [_ <-]. eauto.
Qed.

(** An [alt!] whose first alternative reads [toks1]; the rest reads [toks]. *)
Lemma alt_map A B (f : A -> B) (p : parser text A) q i r v : Fine p ->
  alt_or (pmap f p) q i = Ok r v <->
  (exists a, p i = Ok r a /\ v = f a) \/ ((forall r a, p i <> Ok r a) /\ q i = Ok r v).
Proof.
  intros Hp. unfold alt_or, pmap, bind, ret. destruct (Fine_cases _ _ i Hp) as [(r1 & a1 & E)|(e & k & E)]; rewrite E.
  - split.
    + intros [= <- <-]. left. eauto.
    + intros [(a & [= <- <-] & ->)|(H & _)]; auto. edestruct H; eauto.
  - split.
    + intros H. right. split; auto. discriminate.
    + intros [(a & ? & _)|(_ & H)]; auto. discriminate.
Qed.
Lemma alt_end_ok A i r (v : A) : @alt_end text A i = Ok r v <-> False.
Proof. unfold alt_end. split; [discriminate|tauto]. Qed.

Lemma not_At_term t i : not_minus_dot t -> (forall r a, p_term t i <> Ok r a) <-> (forall r, ~ At (term_tok t) i r).
Proof.
  intros Ht. split.
  - intros H r Ha. apply (p_term_At t i r tt) in Ha; auto. eapply H; eauto.
  - intros H r a E. apply p_term_At in E; auto. eapply H; eauto.
Qed.

Lemma FloatLit_ok i r f : p_FloatLit i = Ok r f <-> Ats (float_toks f) i r.
Proof.
  unfold p_FloatLit. rewrite !alt_map, alt_end_ok by auto with fine.
  setoid_rewrite p_FloatValueLit_At.
  setoid_rewrite p_term_At; try exact Logic.I.
  cbn [term_tok term_is_name term_text].
  assert (Hd : forall t t' r', At t i r -> At t' i r' -> t = t') by (intros; eapply At_det; eauto).
  split.
  - intros [(a & H & ->)|(_ & [(a & H & ->)|(_ & [(a & H & ->)|(_ & [(a & H & ->)|(_ & [])])])])]; apply Ats_one; auto.
  - destruct f as [s| | |]; cbn [float_toks]; rewrite Ats_one; intros H.
    + left. eauto.
    + right. split; [intros r' a H'; specialize (Hd _ _ _ H H'); discriminate|]. left. exists tt; auto.
    + right. split; [intros r' a H'; specialize (Hd _ _ _ H H'); discriminate|]. right.
      split; [intros r' a H'; specialize (Hd _ _ _ H H'); discriminate|]. left. exists tt; auto.
    + right. split; [intros r' a H'; specialize (Hd _ _ _ H H'); discriminate|]. right.
      split; [intros r' a H'; specialize (Hd _ _ _ H H'); discriminate|]. right.
      split; [intros r' a H'; specialize (Hd _ _ _ H H'); discriminate|]. left. exists tt; auto.
Qed.

Lemma pair_ok t u i r v : not_minus_dot t -> not_minus_dot u ->
  bind (p_term t) (fun _ => bind (p_term u) (fun _ => ret tt)) i = Ok r v <-> Ats [term_tok t; term_tok u] i r.
Proof.
  intros Ht Hu. unfold bind, ret. destruct v. split.
  - destruct (p_term t i) as [r1 []| |] eqn:E1; try discriminate.
    destruct (p_term u r1) as [r2 []| |] eqn:E2; try discriminate. intros [= <-].
    exists r1. split; [apply p_term_At in E1; auto|]. apply Ats_one. apply p_term_At in E2; auto.
  - intros (j & H1 & H2). apply Ats_one in H2. apply (p_term_At t i j tt) in H1; auto.
    apply (p_term_At u j r tt) in H2; auto. rewrite H1, H2. reflexivity.
Qed.
Lemma Fine_EmptyArray : Fine p_EmptyArrayLit. Proof. unfold p_EmptyArrayLit. auto with fine. Qed.
Lemma Fine_EmptyDictionary : Fine p_EmptyDictionaryLit. Proof. unfold p_EmptyDictionaryLit. auto with fine. Qed.
Global Hint Resolve Fine_EmptyArray Fine_EmptyDictionary : fine.
Lemma EmptyArray_ok i r v : p_EmptyArrayLit i = Ok r v <-> Ats [TPunct "["; TPunct "]"] i r.
Proof. apply pair_ok; exact Logic.I. Qed.
Lemma EmptyDictionary_ok i r v : p_EmptyDictionaryLit i = Ok r v <-> Ats [TPunct "{"; TPunct "}"] i r.
Proof. apply pair_ok; exact Logic.I. Qed.

Lemma default_toks_cons v : exists t ts, default_toks v = t :: ts.
Proof. destruct v as [[]| | |[]| | |]; do 2 eexists; reflexivity. Qed.

Lemma no_first_ok A (p : parser text A) toks i : (forall r a, p i = Ok r a <-> Ats (toks a) i r) ->
  forall t ts r, Ats (t :: ts) i r -> (forall a t' ts', toks a = t' :: ts' -> t <> t') -> (forall a, toks a <> []) ->
  forall r a, p i <> Ok r a.
Proof.
  intros Hp t ts r H Hne Hnn r' a E. apply Hp in E. destruct (toks a) as [|t' ts'] eqn:Et.
  - eapply Hnn; eauto.
  - eapply Hne; eauto. eapply Ats_first; eauto.
Qed.

Lemma float_toks_first f t ts : float_toks f = t :: ts ->
  t = TNegInf \/ t = TName false (str "Infinity") \/ t = TName false (str "NaN") \/ exists s, t = TFloat s.
Proof. destruct f; cbn; intros [= <- <-]; eauto. Qed.
Lemma bool_toks_first b t ts : bool_toks b = t :: ts -> t = TName false (str "true") \/ t = TName false (str "false").
Proof. destruct b; cbn; intros [= <- <-]; eauto. Qed.

Ltac nofirst :=
  let a := fresh in let t := fresh in let ts := fresh in let E := fresh in
  intros a t ts E;
  first [ apply bool_toks_first in E as [->| ->]; discriminate
        | apply float_toks_first in E as [->|[->|[->|[? ->]]]]; discriminate
        | injection E as <- <-; discriminate ].
Ltac nonempty := let a := fresh in intros a; first [destruct a; discriminate | discriminate].

Lemma float_none i : (forall r f, p_FloatLit i <> Ok r f) -> forall s r, p_FloatValueLit i <> Ok r s.
Proof.
  intros H s r E. apply (H r (FloatLit_Value s)). apply FloatLit_ok. apply Ats_one. apply p_FloatValueLit_At. auto.
Qed.

Theorem DefaultValue_ok i r v : p_DefaultValue i = Ok r v <-> Ats (default_toks v) i r.
Proof.
  unfold p_DefaultValue. rewrite !alt_map, alt_end_ok by auto with fine.
  pose proof (fun r v => proj2 Reads_bool i r v) as Hb.
  pose proof (fun r v => EmptyArray_ok i r v) as Ha. pose proof (fun r v => EmptyDictionary_ok i r v) as Hd.
  pose proof (fun r v => FloatLit_ok i r v) as Hf. pose proof (fun r v => term_Ats Null i r v Logic.I) as Hn.
  pose proof (fun r s => p_StringLit_At i r s) as Hs.
  split.
  - intros [(a & H & ->)|(_ & [(a & H & ->)|(_ & [(a & H & ->)|(_ & [(a & H & ->)|(Nf & [(a & H & ->)|(_ & [(a & H & ->)|
      (_ & [(a & H & ->)|(_ & [])])])])])])])]; cbn [default_toks].
    + apply Hb; auto.
    + apply Ha in H; auto.
    + apply Hd in H; auto.
    + apply Hf in H; auto.
    + apply Ats_one. apply p_IntegerLit_At; auto. intros; apply float_none; auto.
    + apply Hn in H. auto.
    + apply Ats_one. apply Hs. auto.
  - destruct v as [b| | |f|l| |s]; cbn [default_toks]; intros H.
    + left. exists b. split; auto. apply Hb; auto.
    + right. split; [eapply no_first_ok; [exact Hb|exact H|nofirst|nonempty]|].
      left. exists tt. split; auto. apply Ha; auto.
    + right. split; [eapply no_first_ok; [exact Hb|exact H|nofirst|nonempty]|].
      right. split; [eapply no_first_ok; [exact Ha|exact H|nofirst|nonempty]|].
      left. exists tt. split; auto. apply Hd; auto.
    + assert (Hh : exists t ts, float_toks f = t :: ts /\ (t = TNegInf \/ t = TName false (str "Infinity") \/ t = TName false (str "NaN") \/ exists s, t = TFloat s)).
      { destruct f; cbn; do 2 eexists; split; eauto. }
      destruct Hh as (t & ts & Et & Ht). pose proof H as H'. rewrite Et in H'.
      right. split; [eapply no_first_ok; [exact Hb|exact H'| |nonempty]|].
      { intros a t' ts' E. apply bool_toks_first in E as [->| ->]; destruct Ht as [->|[->|[->|[? ->]]]]; discriminate. }
      right. split; [eapply no_first_ok; [exact Ha|exact H'| |nonempty]|].
      { intros a t' ts' E. injection E as <- <-. destruct Ht as [->|[->|[->|[? ->]]]]; discriminate. }
      right. split; [eapply no_first_ok; [exact Hd|exact H'| |nonempty]|].
      { intros a t' ts' E. injection E as <- <-. destruct Ht as [->|[->|[->|[? ->]]]]; discriminate. }
      left. exists f. split; auto. apply Hf; auto.
    + right. split; [eapply no_first_ok; [exact Hb|exact H|nofirst|nonempty]|].
      right. split; [eapply no_first_ok; [exact Ha|exact H|nofirst|nonempty]|].
      right. split; [eapply no_first_ok; [exact Hd|exact H|nofirst|nonempty]|].
      assert (Nf : forall r f, p_FloatLit i <> Ok r f) by (eapply no_first_ok; [exact Hf|exact H|nofirst|nonempty]).
      right. split; auto. left. exists l. split; auto. apply p_IntegerLit_At.
      * intros; apply float_none; auto.
      * apply Ats_one; auto.
    + right. split; [eapply no_first_ok; [exact Hb|exact H|nofirst|nonempty]|].
      right. split; [eapply no_first_ok; [exact Ha|exact H|nofirst|nonempty]|].
      right. split; [eapply no_first_ok; [exact Hd|exact H|nofirst|nonempty]|].
      assert (Nf : forall r f, p_FloatLit i <> Ok r f) by (eapply no_first_ok; [exact Hf|exact H|nofirst|nonempty]).
      right. split; auto. right. split.
      { intros r' l E. apply p_IntegerLit_At in E; [|intros; apply float_none; auto].
        apply Ats_one in H. destruct (At_det _ _ _ _ _ H E). discriminate. }
      left. exists tt. split; auto. apply Hn; auto.
    + right. split; [eapply no_first_ok; [exact Hb|exact H|nofirst|nonempty]|].
      right. split; [eapply no_first_ok; [exact Ha|exact H|nofirst|nonempty]|].
      right. split; [eapply no_first_ok; [exact Hd|exact H|nofirst|nonempty]|].
      assert (Nf : forall r f, p_FloatLit i <> Ok r f) by (eapply no_first_ok; [exact Hf|exact H|nofirst|nonempty]).
      right. split; auto. right. split.
      { intros r' l E. apply p_IntegerLit_At in E; [|intros; apply float_none; auto].
        apply Ats_one in H. destruct (At_det _ _ _ _ _ H E). discriminate. }
      right. split; [eapply no_first_ok with (toks := fun _ => [term_tok Null]); [exact Hn|exact H|nofirst|nonempty]|].
      left. exists s. split; auto. apply Hs. apply Ats_one. auto.
Qed.

Theorem ConstValue_ok i r v : p_ConstValue i = Ok r v <-> Ats (const_toks v) i r.
Proof.
  unfold p_ConstValue. rewrite !alt_map, alt_end_ok by auto with fine.
  pose proof (fun r v => proj2 Reads_bool i r v) as Hb.
  pose proof (fun r v => FloatLit_ok i r v) as Hf. pose proof (fun r v => term_Ats Null i r v Logic.I) as Hn.
  split.
  - intros [(a & H & ->)|(_ & [(a & H & ->)|(Nf & [(a & H & ->)|(_ & [(a & H & ->)|(_ & [])])])])]; cbn [const_toks].
    + apply Hb; auto.
    + apply Hf in H; auto.
    + apply Ats_one. apply p_IntegerLit_At; auto. intros; apply float_none; auto.
    + apply Hn in H. auto.
  - destruct v as [b|f|l|]; cbn [const_toks]; intros H.
    + left. exists b. split; auto. apply Hb; auto.
    + assert (Hh : exists t ts, float_toks f = t :: ts /\ (t = TNegInf \/ t = TName false (str "Infinity") \/ t = TName false (str "NaN") \/ exists s, t = TFloat s)).
      { destruct f; cbn; do 2 eexists; split; eauto. }
      destruct Hh as (t & ts & Et & Ht). pose proof H as H'. rewrite Et in H'.
      right. split; [eapply no_first_ok; [exact Hb|exact H'| |nonempty]|].
      { intros a t' ts' E. apply bool_toks_first in E as [->| ->]; destruct Ht as [->|[->|[->|[? ->]]]]; discriminate. }
      left. exists f. split; auto. apply Hf; auto.
    + right. split; [eapply no_first_ok; [exact Hb|exact H|nofirst|nonempty]|].
      assert (Nf : forall r f, p_FloatLit i <> Ok r f) by (eapply no_first_ok; [exact Hf|exact H|nofirst|nonempty]).
      right. split; auto. left. exists l. split; auto. apply p_IntegerLit_At.
      * intros; apply float_none; auto.
      * apply Ats_one; auto.
    + right. split; [eapply no_first_ok; [exact Hb|exact H|nofirst|nonempty]|].
      assert (Nf : forall r f, p_FloatLit i <> Ok r f) by (eapply no_first_ok; [exact Hf|exact H|nofirst|nonempty]).
      right. split; auto. right. split.
      { intros r' l E. apply p_IntegerLit_At in E; [|intros; apply float_none; auto].
        apply Ats_one in H. destruct (At_det _ _ _ _ _ H E). discriminate. }
      left. exists tt. split; auto. apply Hn; auto.
Qed.

(** ** Terminals consume *)
Lemma Ats_shorter ts : forall i r, Ats ts i r -> length r <= length i /\ (ts <> [] -> length r < length i).
Proof.
  induction ts as [|t ts IH]; cbn; intros i r.
  - intros ->. split; auto. congruence.
  - intros (j & H & H'). apply At_shorter in H. apply IH in H' as [H' _]. split; [|intros _]; lia.
Qed.

Lemma text_sem_consumes A (t : terminal A) i r a : text_sem A t i = Ok r a -> length r < length i.
Proof.
  destruct t as [t| | | |]; cbn [text_sem]; intros H.
  - assert (Hn : str (term_text t) <> []) by (destruct t; discriminate).
    assert (Hg : exists w w', i = w ++ str (term_text t) ++ w' ++ r).
    { destruct (term_is_name t) eqn:E.
      - apply p_term_name_ok in H as (w & w' & -> & _); eauto.
      - apply p_term_punct_ok in H as (w & w' & -> & _); eauto. }
    destruct Hg as (w & w' & ->). rewrite !app_length. destruct (str (term_text t)); [congruence|]. cbn. lia.
  - apply p_Identifier_At in H as [e H]. eapply At_shorter; eauto.
  - apply p_StringLit_At in H. eapply At_shorter; eauto.
  - apply DefaultValue_ok in H. apply Ats_shorter in H as [_ H]. apply H.
    destruct (default_toks_cons a) as (x & xs & ->). discriminate.
  - apply ConstValue_ok in H. apply Ats_shorter in H as [_ H]. apply H. destruct a as [[]|[]| |]; discriminate.
Qed.
Lemma text_sem_returns A (t : terminal A) i : text_sem A t i <> Diverge.
Proof. apply Fine_not_Diverge, Fine_text_sem. Qed.
Lemma text_sem_Good A (t : terminal A) : Good Suf (text_sem A t).
Proof. apply Fine_Good, Fine_text_sem. Qed.
