(** * Proofs of the lexical properties. *)
From Coq Require Import String Ascii NArith Arith Bool List Lia.
From Verif Require Import Nom Lex Ast Grammar Spec LexFacts NumFacts TokFacts RunFacts Shapes TermFacts Api ApiFacts.
Import ListNotations.
Open Scope list_scope.

(** Every text starts with a maximal blank. *)
Lemma blank_split i : exists w r, i = w ++ r /\ Blank w /\ NoBlank r.
Proof. destruct (sp_spec i) as (w & r & _ & H). eauto. Qed.

Lemma Fails_not_ok A (p : parser text A) i : Fine p -> Fails p i <-> forall r a, p i <> Ok r a.
Proof.
  intros H. split.
  - intros (q & k & E) r a. congruence.
  - intros Hn. apply not_ok_err; auto.
Qed.

(** ** Identifiers *)
Lemma name_extend n y : NameLex n -> exists z r, y = z ++ r /\ NameLex (n ++ z) /\ name_ends r.
Proof.
  intros (c & w & -> & Hc & Hw). destruct (span is_ident_char y) as [z r] eqn:E.
  apply span_spec in E as (-> & Hz & Hr). exists z, r. repeat split; auto.
  - exists c, (w ++ z). repeat split; auto. apply Forall_app; split; auto.
    apply (forallb_Forall _ _ is_ident_char_spec); auto.
  - intros d r' ->. intros Hd. apply is_ident_char_spec in Hd. rewrite (Hr d r' eq_refl) in Hd. discriminate.
Qed.

Lemma Identifier_fails i w b : i = w ++ b -> Blank w -> NoBlank b ->
  Fails p_Identifier i <-> forall u n y, (u = [] \/ u = [95%N]) -> NameLex n -> b <> u ++ n ++ y.
Proof.
  intros -> Hw Hb. rewrite Fails_not_ok by auto with fine. split.
  - intros H u n y Hu Hn ->. destruct (name_extend n y Hn) as (z & r & -> & Hz & He).
    destruct (blank_split r) as (w' & r' & -> & Hw' & Hr').
    apply (H r' (n ++ z)). apply p_Identifier_ok. exists w, u, w'. repeat split; auto. rewrite <- !app_assoc. reflexivity.
  - intros H r n E. apply p_Identifier_ok in E as (w1 & u & w' & E & Hw1 & Hu & Hn & He & Hw' & Hr).
    assert (Hb1 : NoBlank (u ++ n ++ w' ++ r)).
    { destruct Hn as (c & x & -> & Hc & _). unfold letter in Hc. destruct Hu as [->| ->]; apply NoBlank_head; unfold blank_char; lia. }
    destruct (Blank_unique _ Hw _ _ _ Hw1 Hb Hb1 E) as [_ ->]. eapply H; eauto.
Qed.

(** ** Terms *)
Definition term_index (s : string) : nat :=
  (fix go (l : list string) (n : nat) := match l with [] => n | x :: l' => if String.eqb s x then n else go l' (S n) end)
  (map term_text [OpenParen; CloseParen; OpenBracket; CloseBracket; OpenBrace; CloseBrace; Comma; Minus; Dot; Ellipsis;
 Colon; SemiColon; LessThan; Assign; GreaterThan; QMark; Asterisk;
 Or; Optional; Async; Attribute; Callback; Const; Deleter; Dictionary; Enum; Getter; Includes; Inherit;
 Interface; Iterable; Maplike; Namespace; Partial; Required; Setlike; Setter; Static; Stringifier;
 Typedef; Unrestricted; Symbol; NegInfinity; ByteString; DOMString; FrozenArray; Infinity; NaN;
 USVString; Any; Boolean; Byte; Double; False_; Float; Long; Null; Object; Octet; Sequence; Short;
 True_; Unsigned; Undefined; Record_; ArrayBuffer; DataView; Int8Array; Int16Array; Int32Array;
 Uint8Array; Uint16Array; Uint32Array; Uint8ClampedArray; Float32Array; Float64Array; ArrayBufferView;
 BufferSource; Promise; Error_; ReadOnly; Mixin; Implements; LegacyCaller; Constructor]) 0.
Definition term_at (n : nat) : term :=
  nth n [OpenParen; CloseParen; OpenBracket; CloseBracket; OpenBrace; CloseBrace; Comma; Minus; Dot; Ellipsis;
 Colon; SemiColon; LessThan; Assign; GreaterThan; QMark; Asterisk;
 Or; Optional; Async; Attribute; Callback; Const; Deleter; Dictionary; Enum; Getter; Includes; Inherit;
 Interface; Iterable; Maplike; Namespace; Partial; Required; Setlike; Setter; Static; Stringifier;
 Typedef; Unrestricted; Symbol; NegInfinity; ByteString; DOMString; FrozenArray; Infinity; NaN;
 USVString; Any; Boolean; Byte; Double; False_; Float; Long; Null; Object; Octet; Sequence; Short;
 True_; Unsigned; Undefined; Record_; ArrayBuffer; DataView; Int8Array; Int16Array; Int32Array;
 Uint8Array; Uint16Array; Uint32Array; Uint8ClampedArray; Float32Array; Float64Array; ArrayBufferView;
 BufferSource; Promise; Error_; ReadOnly; Mixin; Implements; LegacyCaller; Constructor] OpenParen.
Lemma term_text_inj t u : term_text t = term_text u -> t = u.
Proof.
  assert (H : forall t, term_at (term_index (term_text t)) = t) by (destruct t0; vm_compute; reflexivity).
  intros E. rewrite <- (H t), <- (H u), E. reflexivity.
Qed.
Lemma str_inj s : forall s', str s = str s' -> s = s'.
Proof.
  induction s as [|c s IH]; intros [|c' s']; cbn; try discriminate; auto.
  intros [= E1 E2]. f_equal; auto. rewrite <- (ascii_N_embedding c), <- (ascii_N_embedding c'). congruence.
Qed.
Lemma term_tok_inj t u : term_tok t = term_tok u -> t = u.
Proof.
  intros E. apply term_text_inj. apply str_inj. rewrite <- !term_tok_spell. congruence.
Qed.

Lemma p_term_text t i r v : p_term t i = Ok r v -> exists w w',
  i = w ++ str (term_text t) ++ w' ++ r /\ Blank w /\ NoBlank (str (term_text t) ++ w' ++ r).
Proof.
  destruct (term_is_name t) eqn:E; intros H.
  - apply p_term_name_ok in H as (w & w' & H); auto. exists w, w'; tauto.
  - apply p_term_punct_ok in H as (w & w' & H); auto. exists w, w'; tauto.
Qed.

Lemma terms_exclusive t u i r r' v v' : p_term t i = Ok r v -> p_term u i = Ok r' v' ->
  t = u \/ In (t, u) [(Dot, Ellipsis); (Ellipsis, Dot); (Minus, NegInfinity); (NegInfinity, Minus)].
Proof.
  intros Ht Hu.
  assert (Hc : forall c x, str (term_text t) = c :: x -> forall d y, str (term_text u) = d :: y -> c = d).
  { intros c x Ec d y Ed. apply p_term_text in Ht as (w & w' & E & Hw & Hn). apply p_term_text in Hu as (z & z' & E' & Hz & Hn').
    rewrite E in E'. destruct (Blank_unique _ Hw _ _ _ Hz Hn Hn' E') as [_ E2]. rewrite Ec, Ed in E2. injection E2; auto. }
  assert (Hm : forall t, not_minus_dot t \/ t = Minus \/ t = Dot) by (destruct t0; cbn; auto).
  destruct (Hm t) as [Nt|[->| ->]]; [destruct (Hm u) as [Nu|[->| ->]]| |].
  - left. apply p_term_At in Ht; auto. apply p_term_At in Hu; auto.
    destruct (At_det _ _ _ _ _ Ht Hu) as [E _]. apply term_tok_inj; auto.
  - right. destruct t; try discriminate (Hc _ _ eq_refl _ _ eq_refl); cbn; auto.
  - right. destruct t; try discriminate (Hc _ _ eq_refl _ _ eq_refl); cbn; auto.
  - destruct u; try discriminate (Hc _ _ eq_refl _ _ eq_refl); cbn; auto 10.
  - destruct u; try discriminate (Hc _ _ eq_refl _ _ eq_refl); cbn; auto 10.
Qed.

(** A keyword term, and only the boundary. *)
Lemma keyword_spec t i r : term_is_name t = true -> p_term t i = Ok r tt <->
  exists w w', i = w ++ str (term_text t) ++ w' ++ r /\ Blank w /\ name_ends (w' ++ r) /\ Blank w' /\ NoBlank r.
Proof.
  intros Ht. rewrite p_term_name_ok by auto. split.
  - intros (w & w' & H). exists w, w'; tauto.
  - intros (w & w' & H). exists w, w'. intuition. rewrite <- term_tok_spell. apply spell_NoBlank, term_tok_valid.
    destruct t; try discriminate Ht; exact Logic.I.
Qed.

(** ** Numbers *)
Definition int_class (l : IntegerLit) : text -> Prop :=
  match l with IntegerLit_Dec _ => DecLex | IntegerLit_Hex _ => HexLex | IntegerLit_Oct _ => OctLex end.

Lemma IntLex_NumLex l : IntLex l -> NumLex (int_text l).
Proof. apply IntLex_Num. Qed.

Lemma Longest_lex P i s r : Longest P i s r -> P s. Proof. intros (_ & H & _); auto. Qed.
Lemma Longest_eq P i s r : Longest P i s r -> i = s ++ r. Proof. intros (H & _); auto. Qed.

Lemma IntegerLit_spec i r l : p_IntegerLit i = Ok r l <-> exists w w',
  i = w ++ int_text l ++ w' ++ r /\ Blank w /\
  Longest (int_class l) (int_text l ++ w' ++ r) (int_text l) (w' ++ r) /\
  (forall s, l = IntegerLit_Oct s -> forall x y, int_text l ++ w' ++ r = x ++ y -> ~ HexLex x) /\ Blank w' /\ NoBlank r.
Proof.
  unfold p_IntegerLit. rewrite !alt_map, alt_end_ok by auto with fine.
  assert (Hblk : forall w s y w1 s1 y1, Blank w -> Blank w1 -> NumLex s -> NumLex s1 -> w ++ s ++ y = w1 ++ s1 ++ y1 -> s ++ y = s1 ++ y1).
  { intros w s y w1 s1 y1 Hw Hw1 Hs Hs1 E.
    apply (Blank_unique _ Hw _ _ _ Hw1 (NumLex_NoBlank _ _ Hs) (NumLex_NoBlank _ _ Hs1) E). }
  split.
  - intros [(a & H & ->)|(Hd & [(a & H & ->)|(Hx & [(a & H & ->)|(_ & [])])])]; cbn [int_text int_class].
    + apply p_DecLit_longest in H as (w & w' & -> & Hw & Hl & Hw' & Hr). exists w, w'. intuition discriminate.
    + apply p_HexLit_longest in H as (w & w' & -> & Hw & Hl & Hw' & Hr). exists w, w'. intuition discriminate.
    + apply p_OctLit_longest in H as (w & w' & -> & Hw & Hl & Hw' & Hr). exists w, w'.
      refine (conj eq_refl (conj Hw (conj Hl (conj _ (conj Hw' Hr))))).
      intros _ _ x y E Hx'.
      apply (ws_num_no _ HexLex (fun s H => or_intror (or_intror (or_introl H))) hex_num (w ++ a ++ w' ++ r) w x y); auto.
      * apply Fails_not_ok; auto with fine.
      * rewrite E. reflexivity.
  - intros (w & w' & -> & Hw & Hl & Ho & Hw' & Hr). destruct l as [s|s|s]; cbn [int_text int_class] in *.
    + left. exists s. split; auto. apply p_DecLit_longest. exists w, w'. auto.
    + right. assert (Hs : HexLex s) by (eapply Longest_lex; eauto). split.
      { intros r1 s1 E1. apply p_DecLit_longest in E1 as (w1 & w1' & E1 & Hw1 & Hl1 & _).
        assert (Hs1 : DecLex s1) by (eapply Longest_lex; eauto).
        apply Hblk in E1; unfold NumLex; auto.
        apply prefix_cases in E1 as [(z & -> & _)|(z & -> & _)].
        - apply (dec_not_hex (s ++ z) s z); auto.
        - apply (dec_not_hex s1 (s1 ++ z) z); auto. }
      left. exists s. split; auto. apply p_HexLit_longest. exists w, w'. auto.
    + right. assert (Hs : OctLex s) by (eapply Longest_lex; eauto). split.
      { intros r1 s1 E1. apply p_DecLit_longest in E1 as (w1 & w1' & E1 & Hw1 & Hl1 & _).
        assert (Hs1 : DecLex s1) by (eapply Longest_lex; eauto).
        apply Hblk in E1; unfold NumLex; auto.
        apply prefix_cases in E1 as [(z & -> & _)|(z & -> & _)].
        - apply (dec_not_oct (s ++ z) s z); auto.
        - apply (dec_not_oct s1 (s1 ++ z) z); auto. }
      right. split.
      { intros r1 s1 E1. apply p_HexLit_longest in E1 as (w1 & w1' & E1 & Hw1 & Hl1 & _).
        assert (Hs1 : HexLex s1) by (eapply Longest_lex; eauto).
        apply Hblk in E1; unfold NumLex; auto. eapply Ho; eauto. }
      left. exists s. split; auto. apply p_OctLit_longest. exists w, w'. auto.
Qed.

Lemma Float_fails i w b : i = w ++ b -> Blank w -> NoBlank b ->
  Fails p_FloatValueLit i <-> forall s y, FloatLex s -> b <> s ++ y.
Proof.
  intros -> Hw Hb. split.
  - intros H s y Hs ->. eapply (ws_num_no _ FloatLex (fun s H => or_introl H) float_num); eauto.
  - intros H. apply Fails_not_ok; auto with fine. intros r s E.
    apply p_FloatValueLit_longest in E as (w1 & w' & E & Hw1 & Hl & _).
    assert (Hs : FloatLex s) by (eapply Longest_lex; eauto).
    destruct (Blank_unique _ Hw _ _ _ Hw1 Hb (NumLex_NoBlank _ _ (or_introl Hs)) E) as [_ ->]. eapply H; eauto.
Qed.

Lemma Float_not_integer s : FloatLex s -> forall l, IntLex l -> int_text l <> s.
Proof.
  intros Hs l Hl <-. apply (float_not_int (int_text l) [] Hs). rewrite app_nil_r. destruct l; cbn in *; auto.
Qed.

(** ** Escaped identifiers *)
Lemma escaped_spec n r : NameLex n -> name_ends r ->
  (exists w r', r = w ++ r' /\ Blank w /\ NoBlank r' /\ p_Identifier (95%N :: n ++ r) = Ok r' n) /\
  (forall t, Fails (p_term t) (95%N :: n ++ r)).
Proof.
  intros Hn He. split.
  - destruct (blank_split r) as (w & r' & -> & Hw & Hr). exists w, r'. repeat split; auto.
    apply p_Identifier_ok. exists [], [95%N], w. repeat split; auto. constructor.
  - intros t. apply Fails_not_ok; auto with fine. intros r' v H.
    apply p_term_text in H as (w & w' & E & Hw & Hb).
    assert (Hc : NoBlank (95%N :: n ++ r)) by (apply NoBlank_head; unfold blank_char; lia).
    destruct (Blank_unique [] Blank_nil _ _ _ Hw Hc Hb E) as [_ E2].
    destruct t; discriminate E2.
Qed.

(** ** Texts of blanks only *)
Lemma Blank_no_term A (t : terminal A) i : Blank i -> forall r a, text_sem A t i <> Ok r a.
Proof.
  intros Hi r a E.
  assert (Hno : forall w b, i = w ++ b -> Blank w -> NoBlank b -> b = []).
  { intros w b E' Hw Hb. rewrite <- (app_nil_r i) in E'. destruct (Blank_unique _ Hi _ _ _ Hw NoBlank_nil Hb E'); auto. }
  assert (Hat : forall t i r, i = i -> At t i r -> exists w b, i = w ++ b /\ Blank w /\ NoBlank b /\ b <> []).
  { intros t' i' r' _ (w & w' & -> & Hw & Hv & _). exists w, (spell t' ++ w' ++ r'). repeat split; auto.
    - apply spell_NoBlank; auto.
    - intros H. apply app_eq_nil in H as [H _]. eapply spell_nonempty; eauto. }
  assert (Hc : forall t r, ~ At t i r).
  { intros t' r' H. apply Hat in H as (w & b & E' & Hw & Hb & Hn); auto. eauto. }
  destruct t as [t| | | |]; cbn [text_sem] in E.
  - apply p_term_text in E as (w & w' & E' & Hw & Hb). apply (Hno _ _ E' Hw) in Hb. destruct t; discriminate Hb.
  - apply p_Identifier_At in E as [e E]. eapply Hc; eauto.
  - apply p_StringLit_At in E. eapply Hc; eauto.
  - apply DefaultValue_ok in E. destruct (default_toks_cons a) as (t & ts & Ht). rewrite Ht in E. destruct E as (j & E & _).
    eapply Hc; eauto.
  - apply ConstValue_ok in E. destruct a as [[]|[]| |]; destruct E as (j & E & _); eapply Hc; eauto.
Qed.

Definition stays {A} (i : text) (o : res text A) : Prop := match o with Ok r _ => r = i | _ => True end.
Lemma stays_run n A (p : pexp A) i : (forall A (t : terminal A) r a, text_sem A t i <> Ok r a) -> stays i (trun n A p i).
Proof.
  intros Hi. revert A p. induction n as [n IHn] using lt_wf_ind.
  induction p as [A t|A a|A B p IHp f IHf|A p IHp q IHq|A|A p IHp|A p IHp|S A s IHs p IHp|S A s IHs p IHp|A x]; runs.
  - specialize (Hi A t). unfold stays. destruct (text_sem A t i); auto. edestruct Hi; eauto.
  - reflexivity.
  - unfold bind, stays in *. destruct (trun n A p i); auto. subst. apply IHf.
  - unfold alt_or. destruct (trun n A p i) as [|[]|]; auto.
  - exact Logic.I.
  - unfold opt, stays in *. destruct (trun n A p i) as [|[]|]; auto.
  - unfold many0. destruct n; [exact Logic.I|]. cbn [many0_loop]. destruct (trun (S n) A p i) as [r a|[]|]; cbn; auto.
    cbn in IHp. subst. rewrite text_eqb_refl. exact Logic.I.
  - unfold separated_list. destruct (trun n A p i) as [r a|[]|]; cbn; auto. cbn in IHp. subst. rewrite text_eqb_refl. exact Logic.I.
  - unfold separated_nonempty_list. destruct (trun n A p i) as [r a|[]|]; cbn; auto. cbn in IHp. subst. rewrite text_eqb_refl. exact Logic.I.
  - destruct n; [exact Logic.I|]. rewrite run_nt_S. apply IHn. lia.
Qed.

Lemma Impl_blank A p i : Impl true A p -> Blank i -> Fails (parse_as p) i.
Proof.
  intros Hp Hi. destruct (parse_cases _ _ _ i Hp) as [(r & a & E)|H]; auto.
  pose proof (stays_run (S (length i)) A p i (fun A t => Blank_no_term A t i Hi)) as Hs. unfold parse_as in E.
  rewrite E in Hs. cbn in Hs. subst. apply (parse_consumes _ _ _ _ _ Hp) in E. lia.
Qed.

Lemma Definitions_ok i : exists defs r, parse_as e_Definitions i = Ok r defs.
Proof. destruct (Vec_spec _ _ i I_Definition) as (l & r & E & _). eauto. Qed.

Lemma parse_blank i : Blank i -> parse i = match i with [] => Parsed [] | _ => Panicked end.
Proof.
  intros Hi. destruct (Vec_spec _ _ i I_Definition) as (l & r & E & Hc & _).
  assert (Hf := Impl_blank _ _ i I_Definition Hi). destruct Hf as (q & k & Hf).
  assert (l = [] /\ r = i) as [-> ->] by (inversion Hc; subst; [auto|congruence]).
  change (parse_as e_Definitions i = Ok i []) in E. unfold parse. rewrite E. reflexivity.
Qed.

Lemma parse_outcome raw : (exists defs, parse raw = Parsed defs /\ parse_as e_Definitions raw = Ok [] defs) \/
  (parse raw = Panicked /\ exists r defs, r <> [] /\ parse_as e_Definitions raw = Ok r defs).
Proof.
  destruct (Definitions_ok raw) as (defs & r & E). unfold parse. rewrite E. destruct r; [left|right]; eauto.
  split; auto. do 2 eexists. split; [|eauto]. discriminate.
Qed.
Lemma parse_iff raw defs : parse raw = Parsed defs <-> parse_as e_Definitions raw = Ok [] defs.
Proof.
  destruct (parse_outcome raw) as [(d & -> & ->)|(-> & r & d & Hr & ->)]; split; congruence.
Qed.

(** ** Integer types *)
Definition integer_words (t : IntegerType) : list string :=
  match t with
  | IntegerType_LongLong (mkLongLongType (Some _)) => ["unsigned"; "long"; "long"]
  | IntegerType_LongLong (mkLongLongType None) => ["long"; "long"]
  | IntegerType_Long (mkLongType (Some _)) => ["unsigned"; "long"]
  | IntegerType_Long (mkLongType None) => ["long"]
  | IntegerType_Short (mkShortType (Some _)) => ["unsigned"; "short"]
  | IntegerType_Short (mkShortType None) => ["short"]
  end%string.
Definition word (s : string) : tok := TName false (str s).

Ltac tcase t i :=
  let r := fresh "r" in let E := fresh "E" in
  destruct (Fine_cases _ _ i (Fine_term t)) as [(r & [] & E)|(? & ? & E)];
  [pose proof (proj1 (p_term_At t i r tt Logic.I) E) | pose proof (proj1 (not_At_term t i Logic.I) ltac:(intros; congruence))];
  repeat rewrite E.

Lemma IntegerType_spec i r t : parse_as e_IntegerType i = Ok r t <->
  Ats (map word (integer_words t)) i r /\
  match t with IntegerType_Long _ => forall r', ~ At (word "long") r r' | _ => True end.
Proof.
  unfold parse_as. cbn -[p_term integer_words Ats]. unfold alt_or, alt_end, bind, ret, opt.
  assert (D : forall t t' i r r', At t i r -> At t' i r' -> t = t' /\ r = r') by apply At_det.
  split.
  - tcase Unsigned i.
    + tcase Long r0.
      * tcase Long r1; intros [= <- <-]; cbn; eauto 10.
      * tcase Short r0; intros [= <- <-]; cbn; eauto 10.
    + tcase Long i.
      * tcase Long r0; intros [= <- <-]; cbn; eauto 10.
      * tcase Short i; intros [= <- <-]; cbn; eauto 10.
  - assert (P : forall t i r, not_minus_dot t -> At (term_tok t) i r -> p_term t i = Ok r tt) by (intros; apply p_term_At; auto).
    assert (NP : forall t i, not_minus_dot t -> (forall r, ~ At (term_tok t) i r) -> exists q k, p_term t i = Err (Error q k)).
    { intros t0 i0 H0 H. pose proof (proj2 (not_At_term t0 i0 H0) H). apply not_ok_err; auto with fine. }
    intros [H Hl]. destruct t as [[[[]|]]|[[[]|]]|[[[]|]]]; cbn in H.
    + destruct H as (j & H1 & k & H2 & l & H3 & <-).
      rewrite (P Unsigned _ _ Logic.I H1), (P Long _ _ Logic.I H2), (P Long _ _ Logic.I H3). reflexivity.
    + destruct H as (j & H1 & k & H2 & <-).
      destruct (NP Unsigned i Logic.I) as (q & kk & E). { intros r0 H. destruct (D _ _ _ _ _ H H1); discriminate. }
      rewrite E, (P Long _ _ Logic.I H1), (P Long _ _ Logic.I H2). reflexivity.
    + destruct H as (j & H1 & k & H2 & <-). destruct (NP Long k Logic.I Hl) as (q & kk & E).
      rewrite (P Unsigned _ _ Logic.I H1), (P Long _ _ Logic.I H2), E. reflexivity.
    + destruct H as (j & H1 & <-). destruct (NP Long j Logic.I Hl) as (q & kk & E).
      destruct (NP Unsigned i Logic.I) as (q' & kk' & E'). { intros r0 H. destruct (D _ _ _ _ _ H H1); discriminate. }
      rewrite E', (P Long _ _ Logic.I H1), E. reflexivity.
    + destruct H as (j & H1 & k & H2 & <-).
      destruct (NP Long j Logic.I) as (q & kk & E). { intros r0 H. destruct (D _ _ _ _ _ H H2); discriminate. }
      rewrite (P Unsigned _ _ Logic.I H1), E, (P Short _ _ Logic.I H2). reflexivity.
    + destruct H as (j & H1 & <-).
      destruct (NP Unsigned i Logic.I) as (q' & kk' & E'). { intros r0 H. destruct (D _ _ _ _ _ H H1); discriminate. }
      destruct (NP Long i Logic.I) as (q & kk & E). { intros r0 H. destruct (D _ _ _ _ _ H H1); discriminate. }
      rewrite E', E, (P Short _ _ Logic.I H1). reflexivity.
Qed.

Lemma parse_returns raw : parse raw <> NoReturn.
Proof. destruct (parse_outcome raw) as [(d & -> & _)|(-> & _)]; discriminate. Qed.
Lemma parse_not_Failed raw e : parse raw <> Failed e.
Proof. destruct (parse_outcome raw) as [(d & -> & _)|(-> & _)]; discriminate. Qed.
Lemma parse_panics raw : (forall defs, parse raw <> Parsed defs) -> parse raw = Panicked.
Proof. destruct (parse_outcome raw) as [(d & -> & _)|(-> & _)]; auto. intros H. edestruct H; eauto. Qed.

Definition all_terms : list term := map term_at (seq 0 85).
Definition term_eqb (t u : term) : bool := Nat.eqb (term_index (term_text t)) (term_index (term_text u)).
Lemma term_at_index t : term_at (term_index (term_text t)) = t.
Proof. destruct t; vm_compute; reflexivity. Qed.
Lemma keyword_count : exists l, NoDup l /\ length l = 68 /\ forall t, In t l <-> term_is_name t = true.
Proof.
  exists (filter term_is_name all_terms). split; [|split].
  - apply NoDup_filter. apply (NoDup_map_inv (fun t => term_index (term_text t))).
    replace (map _ all_terms) with (seq 0 85) by (vm_compute; reflexivity). apply seq_NoDup.
  - vm_compute. reflexivity.
  - intros t. rewrite filter_In. split; [tauto|]. intros H. split; auto. unfold all_terms. rewrite in_map_iff.
    exists (term_index (term_text t)). split; [apply term_at_index|]. apply in_seq. destruct t; vm_compute; lia.
Qed.

Lemma keywords_exclusive t u s r r' : term_is_name t = true -> term_is_name u = true ->
  p_term t s = Ok r tt -> p_term u s = Ok r' tt -> t = u /\ r = r'.
Proof.
  intros Nt Nu Ht Hu. destruct (terms_exclusive _ _ _ _ _ _ _ Ht Hu) as [->|H].
  - split; congruence.
  - destruct H as [[= <- <-]|[[= <- <-]|[[= <- <-]|[[= <- <-]|[]]]]]; discriminate.
Qed.
Lemma dec_disjoint s s' y y' : DecLex s -> OctLex s' \/ HexLex s' -> s ++ y <> s' ++ y'.
Proof.
  intros Hs Hs' E. apply prefix_cases in E as [(z & E & _)|(z & E & _)];
    destruct Hs' as [H|H]; (apply (dec_not_oct s s' z) in H || apply (dec_not_hex s s' z) in H); auto.
Qed.
