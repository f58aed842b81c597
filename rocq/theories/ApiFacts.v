(** * What every parser of the crate has in common: it returns, in place, with progress. *)
From Coq Require Import String Ascii NArith Arith Bool List Lia.
From Verif Require Import Nom Lex Ast Grammar Spec LexFacts NumFacts TokFacts RunFacts Shapes TermFacts Api.
Import ListNotations.

(** ** [run] on text *)
Notation trun := (run text_eqb text_sem).

Lemma Suf_len i r : Suf r i -> text_eqb r i = false -> length r < length i.
Proof.
  intros [x ->] H. destruct x; [cbn in H; rewrite text_eqb_refl in H; discriminate|].
  rewrite app_length. cbn. lia.
Qed.
Lemma trun_Good n A (p : pexp A) : Good Suf (trun n A p).
Proof. apply run_Good; auto using text_sem_Good. apply Suf_refl. apply Suf_trans. Qed.
Lemma trun_Le n A (p : pexp A) al c : Shape al p c -> forall i r a, trun n A p i = Ok r a -> length r + (if c then 1 else 0) <= length i.
Proof.
  intros H. apply (run_Le text_eqb text_sem (@length _) Suf Suf_refl Suf_trans Suf_len text_sem_Good text_sem_consumes grammar_Shape n A p al c H).
Qed.
Lemma trun_Total n A (p : pexp A) al c i : Shape al p c -> length i + (if al then 1 else 0) < n -> trun n A p i <> Diverge.
Proof.
  intros H. revert i.
  apply (run_Total text_eqb text_sem (@length _) Suf Suf_refl Suf_trans Suf_len text_sem_Good text_sem_consumes text_sem_returns grammar_Shape n A p al c H).
Qed.
Lemma trun_fuel n A (p : pexp A) c i : Shape false p c -> length i < n -> trun n A p i = parse_as p i.
Proof.
  intros H Hn. unfold parse_as.
  apply (run_fuel text_eqb text_sem (@length _) Suf Suf_refl Suf_trans Suf_len text_sem_Good text_sem_consumes text_sem_returns grammar_Shape) with (c := c); auto.
Qed.

(** ** Shapes of all implementations *)
Lemma Shape_al A (p : pexp A) al c : Shape false p c -> Shape al p c.
Proof. intros H. eapply Shape_weaken; eauto. discriminate. Qed.
Lemma Shape_false A (p : pexp A) al c : Shape al p c -> Shape al p false.
Proof. intros H. eapply Shape_weaken; eauto. discriminate. Qed.
Lemma Impl_Shape b A p : Impl b A p -> Shape false p b.
Proof.
  induction 1; try solve [auto with shape]; try exact Logic.I.
  - split; eauto.
  - split; eauto using Shape_false.
  - exists b, b'. repeat split; [auto| |destruct b, b'; auto].
    intros a. exists b', false. repeat split; auto using Shape_al. destruct b'; auto.
  - exists b, (b' || b''). repeat split; [auto| |destruct b, b', b''; auto].
    intros a. exists b', b''. repeat split; [auto using Shape_al| |destruct b', b''; auto].
    intros a'. exists b'', false. repeat split; auto using Shape_al. destruct b''; auto.
  - eapply Shape_paren, Shape_al; eauto.
  - eapply Shape_bracket, Shape_al; eauto.
  - eapply Shape_brace, Shape_al; eauto.
  - eapply Shape_generics, Shape_al; eauto.
  - exists false, false. repeat split; eauto using Shape_false.
  - apply Shape_bind_t with (c2 := false); [|intros a; exact (eq_refl false)].
    apply Shape_bind_t with (c2 := false).
    + split; eauto using Shape_false.
    + intros a. exists false, false. repeat split; auto. exists b'. eauto using Shape_al.
  - exists b, false. repeat split; auto.
    + intros a. exists false, false. repeat split; auto. exists true; exact Logic.I.
    + destruct b; auto.
Qed.

(** ** The parsers on text *)
Lemma num_consumes (f : parser text text) (P : text -> Prop) : (forall s, P s -> NumLex s) ->
  (forall i r s, f i = Ok r s <-> exists w w', i = w ++ s ++ w' ++ r /\ Blank w /\ Longest P (s ++ w' ++ r) s (w' ++ r) /\
     Blank w' /\ NoBlank r) -> forall i r s, f i = Ok r s -> length r < length i.
Proof.
  intros HP Hf i r s H. apply Hf in H as (w & w' & -> & _ & Hl & _). destruct Hl as (_ & Hl & _).
  apply HP in Hl. apply NumLex_head in Hl as (c & y & -> & _). rewrite !app_length. cbn. lia.
Qed.

Lemma Parser_Fine b A p : Parser b A p -> Fine p.
Proof.
  destruct 1 as [b A p H| | | | | | | | |]; auto with fine.
  intros i. pose proof (trun_Good (S (length i)) A p i) as HG. unfold parse_as.
  assert (HT : trun (S (length i)) A p i <> Diverge).
  { eapply trun_Total; [apply Impl_Shape; eauto|cbn; lia]. }
  destruct (trun (S (length i)) A p i) as [|[]|]; auto.
Qed.
Lemma Ats_consumes t ts i r : Ats (t :: ts) i r -> length r < length i.
Proof. intros H. apply Ats_shorter in H as [_ H]. apply H. discriminate. Qed.
Lemma FloatLit_consumes i r f : p_FloatLit i = Ok r f -> length r < length i.
Proof. intros H. apply FloatLit_ok in H. destruct f; eapply Ats_consumes; eauto. Qed.
Lemma Bool_consumes i r f : p_BooleanLit i = Ok r f -> length r < length i.
Proof. intros H. apply (proj2 Reads_bool) in H. destruct f; eapply Ats_consumes; eauto. Qed.
Lemma DecLit_consumes i r f : p_DecLit i = Ok r f -> length r < length i.
Proof. apply (num_consumes _ DecLex); [unfold NumLex; auto|apply p_DecLit_longest]. Qed.
Lemma HexLit_consumes i r f : p_HexLit i = Ok r f -> length r < length i.
Proof. apply (num_consumes _ HexLex); [unfold NumLex; auto|apply p_HexLit_longest]. Qed.
Lemma OctLit_consumes i r f : p_OctLit i = Ok r f -> length r < length i.
Proof. apply (num_consumes _ OctLex); [unfold NumLex; auto|apply p_OctLit_longest]. Qed.
Lemma Integer_consumes i r f : p_IntegerLit i = Ok r f -> length r < length i.
Proof.
  unfold p_IntegerLit. rewrite !alt_map, alt_end_ok by auto with fine.
  intros [(a & H & ->)|(_ & [(a & H & ->)|(_ & [(a & H & ->)|(_ & [])])])].
  - eapply DecLit_consumes; eauto.
  - eapply HexLit_consumes; eauto.
  - eapply OctLit_consumes; eauto.
Qed.
Lemma Parser_consumes A p : Parser true A p -> forall i r a, p i = Ok r a -> length r < length i.
Proof.
  remember true as b. destruct 1 as [b A p H| | | | | | | | |]; intros i r a E.
  - subst b. unfold parse_as in E. apply (trun_Le _ _ _ _ _ (Impl_Shape _ _ _ H)) in E. lia.
  - eapply DecLit_consumes; eauto.
  - eapply HexLit_consumes; eauto.
  - eapply OctLit_consumes; eauto.
  - eapply Integer_consumes; eauto.
  - eapply Bool_consumes; eauto.
  - apply p_FloatValueLit_At in E. eapply At_shorter; eauto.
  - eapply FloatLit_consumes; eauto.
  - apply EmptyArray_ok in E. eapply Ats_consumes; eauto.
  - apply EmptyDictionary_ok in E. eapply Ats_consumes; eauto.
Qed.

(** ** Repetition *)
Definition Fails {A} (p : parser text A) (i : text) : Prop := exists pos k, p i = Err (Error pos k).

(** Items one after the other. *)
Inductive Chain {A} (p : parser text A) : text -> list A -> text -> Prop :=
| Chain_nil i : Chain p i [] i
| Chain_cons i j r a l : p i = Ok j a -> Chain p j l r -> Chain p i (a :: l) r.
(** [sep item sep item ...] *)
Inductive SepChain {A S} (s : parser text S) (p : parser text A) : text -> list A -> text -> Prop :=
| SepChain_nil i : SepChain s p i [] i
| SepChain_cons i j k r x a l : s i = Ok j x -> p j = Ok k a -> SepChain s p k l r -> SepChain s p i (a :: l) r.

Lemma not_same i r : length r < length i -> text_eqb r i = false.
Proof. intros H. apply text_eqb_false. intros ->. lia. Qed.

Lemma parse_cases b A p i : Impl b A p -> (exists r a, parse_as p i = Ok r a) \/ Fails (parse_as p) i.
Proof. intros H. apply Fine_cases. eapply Parser_Fine, P_Impl; eauto. Qed.
Lemma parse_consumes A p i r a : Impl true A p -> parse_as p i = Ok r a -> length r < length i.
Proof. intros H. apply Parser_consumes. apply P_Impl; auto. Qed.
Lemma run_parse b A p n i : Impl b A p -> length i < n -> trun n A p i = parse_as p i.
Proof. intros H. eapply trun_fuel, Impl_Shape; eauto. Qed.

Lemma many0_chain A p fuel n : Impl true A p -> forall i acc, length i < n -> length i < fuel ->
  exists l r, many0_loop text_eqb fuel (trun n A p) i acc = Ok r (acc ++ l) /\ Chain (parse_as p) i l r /\ Fails (parse_as p) r.
Proof.
  intros H. induction fuel as [|fuel IH]; intros i acc Hn Hf; [lia|]. cbn. rewrite (run_parse _ _ _ _ _ H Hn).
  destruct (parse_cases _ _ _ i H) as [(r & a & E)|(pos & k & E)]; rewrite E.
  - pose proof (parse_consumes _ _ _ _ _ H E) as Hc. rewrite not_same by auto.
    destruct (IH r (acc ++ [a])) as (l & r' & E' & H1 & H2); [lia|lia|].
    exists (a :: l), r'. rewrite E', <- app_assoc. repeat split; auto. econstructor; eauto.
  - exists [], i. rewrite app_nil_r. repeat split; [constructor|]. red; eauto.
Qed.
Lemma Vec_spec A p i : Impl true A p -> exists l r,
  parse_as (e_Vec p) i = Ok r l /\ Chain (parse_as p) i l r /\ Fails (parse_as p) r.
Proof.
  intros H. unfold parse_as at 1, e_Vec. rewrite run_many0. unfold many0.
  destruct (many0_chain A p (S (length i)) (S (length i)) H i []) as (l & r & E & H1 & H2); eauto.
Qed.

Lemma sep_chain A S p s fuel n : Impl true A p -> Impl true S s -> forall i acc, length i < n -> length i < fuel ->
  exists l r, sep_loop text_eqb fuel (trun n S s) (trun n A p) i acc = Ok r (acc ++ l) /\
    SepChain (parse_as s) (parse_as p) i l r /\
    (Fails (parse_as s) r \/ exists k x, parse_as s r = Ok k x /\ Fails (parse_as p) k).
Proof.
  intros H Hs. induction fuel as [|fuel IH]; intros i acc Hn Hf; [lia|]. cbn. rewrite (run_parse _ _ _ _ _ Hs Hn).
  destruct (parse_cases _ _ _ i Hs) as [(r & x & E)|(pos & k & E)]; rewrite E.
  - pose proof (parse_consumes _ _ _ _ _ Hs E) as Hc. rewrite not_same by auto.
    assert (Hn' : length r < n) by lia. rewrite (run_parse _ _ _ _ _ H Hn').
    destruct (parse_cases _ _ _ r H) as [(r' & a & E')|(pos & k & E')]; rewrite E'.
    + pose proof (parse_consumes _ _ _ _ _ H E') as Hc'. rewrite not_same by lia.
      destruct (IH r' (acc ++ [a])) as (l & r'' & E'' & H1 & H2); [lia|lia|].
      exists (a :: l), r''. rewrite E'', <- app_assoc. repeat split; auto. econstructor; eauto.
    + exists [], i. rewrite app_nil_r. repeat split; [constructor|]. right. exists r, x. split; auto. red; eauto.
  - exists [], i. rewrite app_nil_r. repeat split; [constructor|]. left. red; eauto.
Qed.

Lemma Punctuated_spec A S p s i : Impl true A p -> Impl true S s -> exists l r,
  parse_as (e_PunctuatedBy p s) i = Ok r l /\
  ((l = [] /\ r = i /\ Fails (parse_as p) i) \/
   exists a j l', l = a :: l' /\ parse_as p i = Ok j a /\ SepChain (parse_as s) (parse_as p) j l' r /\
    (Fails (parse_as s) r \/ exists k x, parse_as s r = Ok k x /\ Fails (parse_as p) k)).
Proof.
  intros H Hs. unfold parse_as at 1, e_PunctuatedBy. runs. unfold bind, separated_list, ret.
  rewrite (run_parse _ _ _ _ _ H) by lia.
  destruct (parse_cases _ _ _ i H) as [(j & a & E)|(pos & k & E)]; rewrite E.
  - pose proof (parse_consumes _ _ _ _ _ H E) as Hc. rewrite not_same by auto.
    destruct (sep_chain A S p s (Datatypes.S (length i)) (Datatypes.S (length i)) H Hs j [a]) as (l & r & E' & H1 & H2); [lia|lia|].
    rewrite E'. exists (a :: l), r. split; auto. right. eauto 10.
  - exists [], i. split; auto. left. repeat split; auto. red; eauto.
Qed.
Lemma PunctuatedNonEmpty_spec A S p s i : Impl true A p -> Impl true S s ->
  (Fails (parse_as p) i /\ Fails (parse_as (e_PunctuatedNonEmptyBy p s)) i) \/
  exists a l j k r, parse_as (e_PunctuatedNonEmptyBy p s) i = Ok r (a :: l) /\
   parse_as p i = Ok j a /\ SepChain (parse_as s) (parse_as p) j l k /\
   ((Fails (parse_as s) k /\ r = k) \/ exists x, parse_as s k = Ok r x /\ Fails (parse_as p) r).
Proof.
  intros H Hs. unfold parse_as at 2, e_PunctuatedNonEmptyBy. runs. unfold bind, separated_nonempty_list, ret, opt.
  unfold Fails at 2. unfold parse_as at 2. runs. unfold bind, separated_nonempty_list, ret, opt.
  rewrite !(run_parse _ _ _ _ _ H) by lia.
  destruct (parse_cases _ _ _ i H) as [(j & a & E)|(pos & k & E)]; rewrite E.
  - right. pose proof (parse_consumes _ _ _ _ _ H E) as Hc. rewrite not_same by auto.
    destruct (sep_chain A S p s (Datatypes.S (length i)) (Datatypes.S (length i)) H Hs j [a]) as (l & r & E' & H1 & H2); [lia|lia|].
    rewrite E'. cbn [app]. runs. unfold bind, opt, ret.
    assert (Hr : length r <= length j).
    { clear - H1 H Hs. induction H1 as [|i0 j0 k0 r0 x0 a0 l0 Es Ep _ IH]; auto.
      apply parse_consumes in Es; auto. apply parse_consumes in Ep; auto. lia. }
    rewrite (run_parse _ _ _ _ _ Hs) by lia.
    destruct (parse_cases _ _ _ r Hs) as [(k & x & Ek)|(pos & k & Ek)]; rewrite Ek.
    + exists a, l, j, r, k. repeat split; auto. right. exists x. split; auto.
      destruct H2 as [(pos & kd & H2)|(k' & x' & H2 & H3)]; [congruence|]. rewrite Ek in H2. injection H2 as <- <-. auto.
    + exists a, l, j, r, r. repeat split; auto. left. split; auto. red; eauto.
  - left. split; unfold Fails; eauto.
Qed.

(** ** [T?] *)
Lemma MayBeNull_spec b (A : Set) (p : pexp A) i r m : Impl b A p ->
  parse_as (e_MayBeNull p) i = Ok r m <->
  exists j t, parse_as p i = Ok j t /\
   ((p_term QMark j = Ok r tt /\ m = mkMayBeNull t (Some tt)) \/ (Fails (p_term QMark) j /\ r = j /\ m = mkMayBeNull t None)).
Proof.
  intros H. unfold parse_as at 1, e_MayBeNull, e_Option. runs. unfold bind, ret, opt.
  rewrite (run_parse _ _ _ _ _ H) by lia.
  destruct (parse_cases _ _ _ i H) as [(j & t & E)|(pos & k & E)]; rewrite E.
  - runs. unfold bind, opt. unfold T_. runs. cbn [text_sem].
    destruct (Fine_cases _ _ j (Fine_term QMark)) as [(r' & [] & E')|(pos & k & E')]; rewrite E'.
    + split.
      * intros [= <- <-]. eauto 10.
      * intros (j' & t' & [= <- <-] & [(H1 & ->)|((pos & k & H1) & _)]); rewrite E' in H1; [|discriminate].
        injection H1 as <-. auto.
    + split.
      * intros [= <- <-]. unfold Fails. eauto 10.
      * intros (j' & t' & [= <- <-] & [(H1 & ->)|(_ & -> & ->)]); [congruence|]. auto.
  - split; [discriminate|]. intros (j & t & ? & _). discriminate.
Qed.

Lemma Parser_error b A (p : parser text A) : Parser b A p ->
  forall s e, p s = Err e -> exists pos kind before, e = Error pos kind /\ s = before ++ pos.
Proof.
  intros H s e E. pose proof (Parser_Fine b A p H s) as HF. rewrite E in HF. destruct e; try contradiction.
  destruct HF as [x Hx]. eauto.
Qed.
Lemma Vec_not_Err A (p : pexp A) : Impl true A p -> forall s e, parse_as (e_Vec p) s <> Err e.
Proof. intros H s e E. destruct (Vec_spec A p s H) as (l & r & E' & _). congruence. Qed.
Lemma Punctuated_not_Err A S (p : pexp A) (sep : pexp S) : Impl true A p -> Impl true S sep ->
  forall s e, parse_as (e_PunctuatedBy p sep) s <> Err e.
Proof. intros H H' s e E. destruct (Punctuated_spec A S p sep s H H') as (l & r & E' & _). congruence. Qed.
Lemma Parser_suffix b A (p : parser text A) : Parser b A p -> forall s rest v, p s = Ok rest v -> exists consumed, s = consumed ++ rest.
Proof. intros H s rest v E. pose proof (Parser_Fine b A p H s) as HF. rewrite E in HF. exact HF. Qed.
Lemma Parser_terminates b A (p : parser text A) : Parser b A p -> forall s, p s <> Diverge.
Proof. intros H s E. pose proof (Parser_Fine b A p H s) as HF. rewrite E in HF. exact HF. Qed.
