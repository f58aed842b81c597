(** * Texts: exactly the layouts of sentences are accepted.

    [parse text = Parsed defs] iff [text] is a layout of a token sequence that is the concrete syntax of [defs], and
    [defs] is well formed.  From this the properties of [parse] that speak of whole texts follow. *)
From Coq Require Import String Ascii NArith Arith Bool List Lia.
From Verif Require Import Nom Lex Ast Grammar Spec LexFacts NumFacts TokFacts RunFacts Shapes TermFacts Api ApiFacts LexProps
  Tok TokRun TokSound TokComplete TokMembers Shows.
Import ListNotations.
Open Scope list_scope.

(** ** From texts to tokens and back *)
Lemma parse_not_Diverge A (p : pexp A) c i : Shape false p c -> parse_as p i <> Diverge.
Proof. intros H. unfold parse_as. eapply trun_Total; eauto. cbn. lia. Qed.

Lemma text_to_toks A (p : pexp A) c r0 i ts r a : Shape false p c -> Plain p -> Stuck r0 -> Rd r0 i ts -> parse_as p i = Ok r a ->
  exists ts', Ev p ts (Some (a, ts')) /\ Step r0 i ts r ts'.
Proof.
  intros HS HP H0 HR E. pose proof (run_Sim r0 H0 (S (length i)) A p HP i ts HR) as H.
  unfold parse_as in E. unfold SimR in H. rewrite E in H.
  destruct (krun (S (length i)) A p ts) as [ts' a'| |] eqn:Ek; try contradiction. destruct H as [-> H].
  exists ts'. split; auto. apply Ev_Some. eauto.
Qed.
Lemma toks_to_text A (p : pexp A) c r0 i ts ts' a : Shape false p c -> Plain p -> Stuck r0 -> Rd r0 i ts -> Ev p ts (Some (a, ts')) ->
  exists r, parse_as p i = Ok r a /\ Step r0 i ts r ts'.
Proof.
  intros HS HP H0 HR E. pose proof (run_Sim r0 H0 (S (length i)) A p HP i ts HR) as H.
  pose proof (parse_not_Diverge _ _ _ i HS) as Hd. unfold parse_as in *. unfold SimR in H.
  remember (S (length i)) as N eqn:EN. clear EN.
  assert (Hk : krun N A p ts <> Diverge).
  { intros Ek. rewrite Ek in H. destruct (trun N A p i) as [|[]|]; auto. }
  apply (Ev_krun _ _ _ _ E) in Hk. rewrite Hk in H.
  destruct (trun N A p i) as [r a'|[]|]; try contradiction. destruct H as [-> H]. eauto.
Qed.
Lemma toks_to_text_no A (p : pexp A) c r0 i ts : Shape false p c -> Plain p -> Stuck r0 -> Rd r0 i ts -> Ev p ts None ->
  Fails (parse_as p) i.
Proof.
  intros HS HP H0 HR E. pose proof (run_Sim r0 H0 (S (length i)) A p HP i ts HR) as H.
  pose proof (parse_not_Diverge _ _ _ i HS) as Hd. unfold Fails, parse_as in *. unfold SimR in H.
  remember (S (length i)) as N eqn:EN. clear EN.
  assert (Hk : krun N A p ts <> Diverge).
  { intros Ek. rewrite Ek in H. destruct (trun N A p i) as [|[]|]; auto. }
  apply (Ev_krun _ _ _ _ E) in Hk as (j & k & Hk). rewrite Hk in H.
  destruct (trun N A p i) as [r a'|[]|]; try contradiction. eauto.
Qed.
Lemma text_to_toks_no A (p : pexp A) c r0 i ts : Shape false p c -> Plain p -> Stuck r0 -> Rd r0 i ts -> Fails (parse_as p) i ->
  Ev p ts None.
Proof.
  intros HS HP H0 HR (q & k & E). destruct (Ev_total _ _ _ _ ts HS) as ([[a ts']|] & H); auto.
  destruct (toks_to_text _ _ _ _ _ _ _ _ HS HP H0 HR H) as (r & E' & _). congruence.
Qed.

Lemma Lay_nil_inv i r : Lay i [] r -> i = r.
Proof. intros H. inversion H; auto. Qed.
Lemma Lay_empty ts r : Lay [] ts r -> ts = [] /\ r = [].
Proof.
  intros H. inversion H; subst; auto. exfalso. apply (spell_nonempty t); auto. destruct (spell t); auto. discriminate.
Qed.
Lemma Rd_empty r0 ts : Rd r0 [] ts -> ts = [] /\ r0 = [].
Proof.
  intros (w & b & E & _ & H). destruct w; [|discriminate]. cbn in E. subst. apply Lay_empty; auto.
Qed.

Lemma S_Defs : Shape false e_Definitions false.
Proof. apply (Impl_Shape _ _ _ I_Definitions). Qed.
Lemma P_Defs : Plain e_Definitions.
Proof. exact e_Definition_Plain. Qed.

(** ** The exact language *)
Lemma Ev_sound_Definitions ts d ts' : Ev e_Definitions ts (Some (d, ts')) -> Conc (show_Definitions d) ts ts' /\ wf_Definitions d.
Proof. intros H. apply Ev_Some in H as [n H]. eapply S_Definitions; eauto. Qed.
Lemma Ev_Definition_nil : Ev e_Definition [] None.
Proof. erej. Qed.

Theorem parse_sound raw defs : parse raw = Parsed defs ->
  exists ts, Toks raw ts /\ Sentence defs ts /\ wf_Definitions defs.
Proof.
  intros H. apply parse_iff in H. destruct (tokenize raw) as (ts & r0 & H0 & HR).
  destruct (text_to_toks _ _ _ _ _ _ _ _ S_Defs P_Defs H0 HR H) as (ts' & HE & HS).
  destruct (Ev_sound_Definitions _ _ _ HE) as [HC HW].
  assert (Hr : ts' = [] /\ r0 = [] /\ (ts = [] -> raw = [])).
  { destruct HS as [[<- ->]|(_ & HL & _ & Hlen & _)].
    - apply Rd_empty in HR as [-> ->]. auto.
    - apply Lay_empty in HL as [-> ->]. repeat split; auto. intros ->. cbn in Hlen. lia. }
  destruct Hr as (-> & -> & Hn).
  exists ts. split; [|split; auto]. destruct HR as (w & b & -> & Hw & Hl). exists w, b. repeat split; auto.
  intros E. specialize (Hn E). destruct w; auto. discriminate.
Qed.

Theorem parse_complete raw ts defs : Toks raw ts -> Sentence defs ts -> wf_Definitions defs -> parse raw = Parsed defs.
Proof.
  intros (w & b & -> & Hw & Hn & Hl) HC HW. apply parse_iff.
  pose proof (C_Definitions _ _ _ HC HW Ev_Definition_nil) as HE.
  assert (HR : Rd [] (w ++ b) ts) by (exists w, b; auto).
  destruct (toks_to_text _ _ _ _ _ _ _ _ S_Defs P_Defs Stuck_nil HR HE) as (r & E & HS). rewrite E. f_equal.
  destruct HS as [[-> <-]|(_ & HL & _)].
  - rewrite Hn by auto. apply Lay_nil_inv in Hl. auto.
  - apply Lay_nil_inv in HL. auto.
Qed.

Theorem parse_exact raw defs : parse raw = Parsed defs <-> exists ts, Toks raw ts /\ Sentence defs ts /\ wf_Definitions defs.
Proof. split; [apply parse_sound|]. intros (ts & H1 & H2 & H3). eapply parse_complete; eauto. Qed.

(** A text is a layout of at most one token sequence. *)
Lemma Lay_unique i ts ts' : Lay i ts [] -> Lay i ts' [] -> ts = ts'.
Proof.
  intros Hl. match type of Hl with Lay _ _ ?n => remember n as r0 eqn:E0 end. revert ts'. induction Hl as [r|t w i ts r Hv He Hw Hl IH]; intros ts' Hl'.
  - subst. apply Lay_empty in Hl' as [-> _]. auto.
  - subst r. specialize (IH eq_refl). assert (Hn := Lay_NoBlank _ _ _ Hl NoBlank_nil).
    inversion Hl' as [r E|t' w' i' ts2 r Hv' He' Hw' Hl2 E]; subst.
    { exfalso. apply (spell_nonempty t); auto. destruct (spell t); auto. discriminate. }
    assert (Hn' := Lay_NoBlank _ _ _ Hl2 NoBlank_nil).
    assert (H1 : At t (spell t ++ w ++ i) i) by (exists [], w; repeat split; auto; constructor).
    assert (H2 : At t' (spell t ++ w ++ i) i') by (exists [], w'; repeat split; auto; constructor).
    destruct (At_det _ _ _ _ _ H1 H2) as [<- <-]. f_equal. auto.
Qed.
Theorem Toks_unique i ts ts' : Toks i ts -> Toks i ts' -> ts = ts'.
Proof.
  intros (w & x & -> & Hw & _ & Hl) (w' & x' & E & Hw' & _ & Hl').
  destruct (Blank_unique _ Hw _ _ _ Hw' (Lay_NoBlank _ _ _ Hl NoBlank_nil) (Lay_NoBlank _ _ _ Hl' NoBlank_nil) E) as [_ <-].
  eapply Lay_unique; eauto.
Qed.

(** Blanks do not matter. *)
Theorem parse_same_toks a b ts : Toks a ts -> Toks b ts -> parse a = parse b.
Proof.
  assert (H : forall a b defs, Toks a ts -> Toks b ts -> parse a = Parsed defs -> parse b = Parsed defs).
  { intros a' b' defs Ha Hb E. apply parse_sound in E as (ts' & Ha' & HS & HW).
    rewrite (Toks_unique _ _ _ Ha' Ha) in HS. eapply parse_complete; eauto. }
  intros Ha Hb. destruct (parse_outcome a) as [(d & E & _)|[E _]].
  - rewrite E. symmetry. eauto.
  - rewrite E. symmetry. apply parse_panics. intros d E'. apply (H _ a) in E'; auto. congruence.
Qed.

Theorem Sentence_unique ts d d' : Sentence d ts -> Sentence d' ts -> wf_Definitions d -> wf_Definitions d' -> d = d'.
Proof.
  intros H H' Hw Hw'. pose proof (C_Definitions _ _ _ H Hw Ev_Definition_nil) as E.
  pose proof (C_Definitions _ _ _ H' Hw' Ev_Definition_nil) as E'.
  pose proof (Ev_det _ _ _ _ _ E E') as K. congruence.
Qed.

(** ** Extending and joining layouts *)
Definition num_char (c : char) : Prop := hexdigit c \/ c = 88%N \/ c = 120%N \/ c = 46%N \/ c = 45%N \/ c = 43%N.
Lemma digit_num c : digit c -> num_char c.
Proof. unfold digit, num_char, hexdigit. ulia. Qed.
Lemma digits_num w : Forall digit w -> Forall num_char w.
Proof. intros H. eapply Forall_impl; [|exact H]. apply digit_num. Qed.
Lemma Sign_num m : Sign m -> Forall num_char m.
Proof. intros [->| ->]; [constructor|]. constructor; [unfold num_char, hexdigit; ulia|constructor]. Qed.
Lemma Exp_num x : ExpLex x -> Forall num_char x.
Proof.
  intros (e & g & w & -> & He & Hg & _ & Hw). constructor; [unfold num_char, hexdigit; ulia|]. apply Forall_app. split; auto using digits_num.
  destruct Hg as [->|[->| ->]]; [constructor|..]; (constructor; [unfold num_char, hexdigit; ulia|constructor]).
Qed.
Lemma NumLex_chars s : NumLex s -> Forall num_char s.
Proof.
  intros [(m & b & -> & Hm & Hb)|[(m & d & w & -> & Hm & Hd & Hw)|[(m & x & w & -> & Hm & Hx & Hw)|(m & w & -> & Hm & Hw)]]];
    apply Forall_app; (split; [apply Sign_num; auto|]).
  - destruct Hb as [(w1 & w2 & x & -> & H1 & H2 & _ & Hx)|(w & x & -> & _ & Hw & Hx)].
    + apply Forall_app. split; auto using digits_num. constructor; [unfold num_char, hexdigit; ulia|]. apply Forall_app. split; auto using digits_num.
      destruct Hx as [->|Hx]; auto using Exp_num.
    + apply Forall_app. auto using digits_num, Exp_num.
  - constructor; auto using digits_num. unfold num_char, hexdigit. ulia.
  - constructor; [unfold num_char, hexdigit; ulia|]. constructor; [unfold num_char, hexdigit; ulia|].
    eapply Forall_impl; [|exact Hw]. unfold num_char. auto.
  - constructor; [unfold num_char, hexdigit; ulia|].
    eapply Forall_impl; [|exact Hw]. unfold num_char, octdigit, hexdigit. ulia.
Qed.

(** A number ends as soon as a character that is in no number comes. *)
Lemma num_ends_extend s u c v : ~ num_char c -> num_ends s (u ++ [c]) -> num_ends s (u ++ c :: v).
Proof.
  intros Hc H x y E Hx HN. apply app_eq_app in E as (l & [[-> E]|[-> E]]).
  - apply (H x (l ++ [c])); auto. rewrite app_assoc. auto.
  - destruct l as [|c' l].
    + apply (H u [c]); auto; rewrite app_nil_r in *; auto.
    + injection E as <- _. apply NumLex_chars in HN. rewrite Forall_forall in HN. apply Hc, HN.
      rewrite !in_app_iff. right. right. left. auto.
Qed.
Lemma num_ends_prefix s u v : num_ends s (u ++ v) -> num_ends s u.
Proof. intros H x y -> Hx. apply (H x (y ++ v)); auto. rewrite app_assoc. auto. Qed.
Lemma ends_ok_extend t u c v : ~ num_char c -> ends_ok t (u ++ [c]) -> ends_ok t (u ++ c :: v).
Proof.
  intros Hc. assert (Hn : name_ends (u ++ [c]) -> name_ends (u ++ c :: v)).
  { intros H c' r E. destruct u as [|d u]; injection E as <- _; eapply H; reflexivity. }
  destruct t; cbn; auto using num_ends_extend.
Qed.
Lemma ends_ok_prefix t u v : ends_ok t (u ++ v) -> ends_ok t u.
Proof.
  assert (Hn : name_ends (u ++ v) -> name_ends u).
  { intros H c' r ->. eapply H. reflexivity. }
  destruct t; cbn; eauto using num_ends_prefix.
Qed.

(** A layout of tokens that end with a semicolon can be followed by anything. *)
Lemma Lay_semi init : forall i, Lay i (init ++ [TPunct ";"]) [] -> exists u v, i = u ++ 59%N :: v.
Proof.
  induction init as [|t init IH]; cbn; intros i H; inversion H as [|t' w i' ts' r Hv He Hw Hl]; subst.
  - exists [], (w ++ i'). reflexivity.
  - apply IH in Hl as (u & v & ->). exists (spell t ++ w ++ u), v. rewrite <- !app_assoc. auto.
Qed.
Lemma Lay_extend init r : forall i, Lay i (init ++ [TPunct ";"]) [] -> Lay (i ++ r) (init ++ [TPunct ";"]) r.
Proof.
  induction init as [|t init IH]; cbn [app]; intros i H; inversion H as [|t' w i' ts' r' Hv He Hw Hl]; subst.
  - apply Lay_nil_inv in Hl. subst. rewrite <- !app_assoc. apply Lay_cons; auto; constructor.
  - rewrite <- !app_assoc. apply Lay_cons; auto. destruct (Lay_semi _ _ Hl) as (u & v & ->).
    rewrite <- app_assoc. cbn [app]. rewrite app_assoc. apply ends_ok_extend. { unfold num_char, hexdigit. ulia. }
    apply (ends_ok_prefix _ _ v). rewrite <- !app_assoc. cbn [app]. auto.
Qed.
Lemma Lay_join w b us r : Blank w -> Lay b us r -> forall ts i, Lay i ts (w ++ b) -> ts <> [] -> Lay i (ts ++ us) r.
Proof.
  intros Hw Hb. induction ts as [|t ts IH]; intros i H Hn; [congruence|]. cbn [app].
  inversion H as [|t' w' i' ts' r' Hv He Hw' Hl]; subst. destruct ts as [|t2 ts].
  - apply Lay_nil_inv in Hl. subst. rewrite (app_assoc w' w b). apply Lay_cons; auto using Blank_app. rewrite <- app_assoc. auto.
  - apply Lay_cons; auto. apply IH; auto. discriminate.
Qed.

(** Concrete syntax that ends with a semicolon can be followed by anything. *)
Lemma Conc_semi_nonempty g i r : Conc (g ++ [GP ";"]) i r -> i <> [].
Proof.
  revert i. induction g as [|x g IH]; cbn; intros i H; inversion H; subst; try discriminate. apply IH; auto.
Qed.
Lemma fuses_cons n t i us : fuses n (t :: i ++ us) -> fuses n (t :: i).
Proof.
  intros [[-> (r & [E|E])]|[-> (r & [E|E])]]; injection E as -> _; [left|left|right|right]; (split; [auto|]); eauto.
Qed.
Lemma Conc_extend g us : forall i r, Conc (g ++ [GP ";"]) i r -> Conc (g ++ [GP ";"]) (i ++ us) (r ++ us).
Proof.
  induction g as [|x g IH]; cbn [app]; intros i r H.
  - inversion H; subst. match goal with K : Conc [] _ _ |- _ => inversion K; subst end. cbn. repeat constructor.
  - inversion H; subst; try (cbn [app]; constructor; auto; fail).
    cbn [app]. match goal with K : Conc (g ++ _) ?j _ |- _ => pose proof (Conc_semi_nonempty _ _ _ K); destruct j as [|t j] end; [congruence|].
    apply Conc_ty_raw; auto. intros K. apply fuses_cons in K. auto.
Qed.

(** Every definition ends with a semicolon. *)
Lemma show_end defs : defs <> [] -> exists g, show_Definitions defs = g ++ [GP ";"].
Proof.
  intros Hn. destruct (exists_last Hn) as (l & d & ->). unfold show_Definitions. rewrite flat_map_app. cbn. rewrite app_nil_r.
  pose proof (B_Definition (fun _ => True) Logic.I (fun _ _ _ _ => Logic.I) (fun _ _ => Logic.I) (fun _ _ => Logic.I) d) as HB.
  destruct HB as [g (h & -> & _)|g ls _ _].
  - exists (flat_map show_Definition l ++ h). apply app_assoc.
  - exists (flat_map show_Definition l ++ g ++ GP "{" :: concat ls ++ [GP "}"]).
    rewrite <- !app_assoc. cbn. rewrite <- !app_assoc. auto.
Qed.
Lemma Sentence_end defs ts r : Conc (show_Definitions defs) ts r -> defs <> [] -> exists init, ts = init ++ TPunct ";" :: r.
Proof.
  intros H Hn. destruct (show_end _ Hn) as (g & E). rewrite E in H. apply Conc_split in H as (k & H2 & H3).
  apply Conc_suffix in H2 as [y ->].
  inversion H3 as [| |s g' i' r' H4| | | | | | | | | |]; subst. inversion H4; subst. eauto.
Qed.

Lemma Toks_nil i : Toks i [] -> i = [].
Proof. intros (w & b & -> & _ & Hn & Hl). rewrite Hn by auto. apply Lay_nil_inv in Hl. auto. Qed.
Lemma Sentence_nil ts : Sentence [] ts -> ts = [].
Proof. intros H. inversion H; auto. Qed.
Lemma parse_nil raw : parse raw = Parsed [] -> raw = [].
Proof. intros H. apply parse_sound in H as (ts & HT & HS & _). apply Sentence_nil in HS. subst. apply Toks_nil; auto. Qed.

(** Accepted texts can be concatenated. *)
Theorem parse_app a b x y : parse a = Parsed x -> parse b = Parsed y -> parse (a ++ b) = Parsed (x ++ y).
Proof.
  intros Ha Hb. destruct x as [|d x]. { apply parse_nil in Ha. subst. auto. }
  apply parse_sound in Ha as (ts & (w & i & -> & Hw & _ & Hl) & HS & HW).
  destruct y as [|d' y].
  { apply parse_nil in Hb. subst. rewrite !app_nil_r. eapply parse_complete; eauto. exists w, i. repeat split; auto.
    intros ->. destruct (Sentence_end _ _ _ HS) as (init & E); [discriminate|]. destruct init; discriminate. }
  apply parse_sound in Hb as (us & (w' & i' & -> & Hw' & _ & Hl') & HS' & HW').
  destruct (Sentence_end _ _ _ HS) as (init & E); [discriminate|]. subst ts.
  apply parse_complete with (ts := (init ++ [TPunct ";"]) ++ us).
  - exists w, (i ++ w' ++ i'). split; [rewrite <- app_assoc; auto|]. repeat split; auto.
    + intros E. destruct init; discriminate.
    + apply (Lay_join w' i'); auto.
      * apply Lay_extend; auto.
      * destruct init; discriminate.
  - unfold Sentence, show_Definitions in *. rewrite flat_map_app. eapply Conc_app; [|exact HS'].
    destruct (show_end (d :: x)) as (g & E); [discriminate|]. unfold show_Definitions in E. rewrite E in *.
    apply (Conc_extend g us _ [] HS).
  - revert HW HW'. generalize (d :: x) (d' :: y). clear. intros l l' H H'. induction l; cbn in *; tauto.
Qed.

(** ** Accepted text followed by a rest *)
Lemma Lay_Ats ts : forall w i r, Lay i ts r -> NoBlank r -> Blank w -> ts <> [] -> Ats ts (w ++ i) r.
Proof.
  induction ts as [|t ts IH]; intros w i r H Hr Hw Hn; [congruence|].
  inversion H as [|t' w' i' ts' r' Hv He Hw' Hl]; subst. destruct ts as [|t2 ts].
  - apply Lay_nil_inv in Hl. subst. exists r. split; [|reflexivity]. exists w, w'. repeat split; auto.
  - exists i'. split.
    + exists w, w'. repeat split; auto. eapply Lay_NoBlank; eauto.
    + apply (IH [] i' r); auto; [constructor|discriminate].
Qed.

Theorem Definitions_rest text defs rest : parse text = Parsed defs -> NoBlank rest -> Fails (parse_as e_Definition) rest ->
  parse_as e_Definitions (text ++ rest) = Ok rest defs.
Proof.
  intros Hp Hb Hf. destruct defs as [|d x].
  { apply parse_nil in Hp. subst. cbn [app]. destruct (Vec_spec _ _ rest I_Definition) as (l & r & E & Hc & _).
    assert (l = [] /\ r = rest) as [-> ->]; [|exact E]. destruct Hf as (q & k & Hf). inversion Hc; subst; auto. congruence. }
  apply parse_sound in Hp as (ts & (w & i & -> & Hw & _ & Hl) & HS & HW).
  destruct (Sentence_end _ _ _ HS) as (init & E); [discriminate|]. subst ts.
  destruct (tokenize rest) as (us & r0 & H0 & w' & b & E & Hw' & Hb').
  assert (w' = []) as ->.
  { destruct Hw' as [|a w' Ha Hw']; auto. exfalso. apply (Hb a (w' ++ b)); auto. rewrite E, app_assoc. auto. }
  cbn in E. subst b. set (ts := init ++ [TPunct ";"]) in *.
  assert (Hts : ts <> []) by (unfold ts; destruct init; discriminate).
  assert (HL : Lay (i ++ rest) ts rest) by (apply Lay_extend; auto).
  assert (HR : Rd r0 ((w ++ i) ++ rest) (ts ++ us)).
  { exists w, (i ++ rest). split; [rewrite app_assoc; auto|]. split; auto. apply (Lay_join [] rest); auto. }
  assert (HN : Ev e_Definition us None).
  { apply (text_to_toks_no _ _ _ r0 rest us (Impl_Shape _ _ _ I_Definition) e_Definition_Plain); auto. apply Rd_Lay; auto. }
  assert (HC : Conc (show_Definitions (d :: x)) (ts ++ us) us).
  { destruct (show_end (d :: x)) as (g & E); [discriminate|]. unfold Sentence in HS. rewrite E in *. apply (Conc_extend g us _ [] HS). }
  pose proof (C_Definitions _ _ _ HC HW HN) as HE.
  destruct (toks_to_text _ _ _ _ _ _ _ _ S_Defs P_Defs H0 HR HE) as (r & E & HSt). rewrite E. f_equal.
  destruct HSt as [[_ K]|(_ & _ & _ & _ & used & K & HA)].
  - exfalso. apply Hts. apply (app_inv_tail us). symmetry. exact K.
  - apply app_inv_tail in K. subst used. rewrite <- app_assoc in HA. eapply Ats_det; eauto. apply Lay_Ats; auto.
Qed.

(** Blanks around accepted text. *)
Theorem parse_blank_around w w' text defs : parse text = Parsed defs -> defs <> [] -> Blank w -> Blank w' ->
  parse (w ++ text ++ w') = Parsed defs.
Proof.
  intros Hp Hn Hw Hw'. apply parse_sound in Hp as (ts & (u & i & -> & Hu & _ & Hl) & HS & HW).
  destruct (Sentence_end _ _ _ HS) as (init & E); auto. subst ts.
  apply parse_complete with (ts := init ++ [TPunct ";"]); auto.
  exists (w ++ u), (i ++ w'). split; [rewrite <- !app_assoc; auto|]. split; [auto using Blank_app|].
  split; [destruct init; discriminate|].
  rewrite <- (app_nil_r (init ++ _)). apply (Lay_join w' []); auto; [constructor| |destruct init; discriminate].
  rewrite (app_nil_r w'). apply Lay_extend. auto.
Qed.
Corollary Definitions_blank_rest text defs w rest : parse text = Parsed defs -> defs <> [] -> Blank w -> NoBlank rest ->
  Fails (parse_as e_Definition) rest -> parse_as e_Definitions (text ++ w ++ rest) = Ok rest defs.
Proof.
  intros Hp Hn Hw Hb Hf. rewrite app_assoc. apply Definitions_rest; auto.
  apply (parse_blank_around [] w text); auto. constructor.
Qed.

(** A comment that does not end. *)
Lemma open_line_NoBlank c : ~ In 10%N c -> NoBlank (47%N :: 47%N :: c).
Proof.
  intros H a r [x Hx|b Hb|b Hb] E; cbn in E; injection E; intros; subst; try discriminate.
  - unfold blank_char in Hx. ulia.
  - apply H. rewrite !in_app_iff. left. right. left. auto.
Qed.
Lemma open_block_NoBlank c : (forall x y, c <> x ++ 42%N :: 47%N :: y) -> NoBlank (47%N :: 42%N :: c).
Proof.
  intros H a r [x Hx|b Hb|b Hb] E; cbn in E; injection E; intros; subst; try discriminate.
  - unfold blank_char in Hx. ulia.
  - apply (H b r). rewrite <- app_assoc. auto.
Qed.
Lemma slash_Stuck c : NoBlank (47%N :: c) -> Stuck (47%N :: c).
Proof.
  intros Hb. split; auto. intros t r (w & w' & E & Hw & Hv & _ & _ & _).
  assert (w = []) as ->.
  { destruct Hw as [|a w Ha Hw]; auto. exfalso. rewrite <- app_assoc in E. apply (Hb a _ Ha E). }
  destruct (spell_head t Hv) as (d & x & Es & Hd). rewrite Es in E. cbn in E. injection E as <- _.
  destruct t as [[]| | | | |]; try (apply puncts_head in Hd; tauto); unfold letter, digit in *; ulia.
Qed.
Lemma slash_Fails c : NoBlank (47%N :: c) -> Fails (parse_as e_Definition) (47%N :: c).
Proof.
  intros H. apply (toks_to_text_no _ _ _ (47%N :: c) _ [] (Impl_Shape _ _ _ I_Definition) e_Definition_Plain).
  - apply slash_Stuck; auto.
  - exists [], (47%N :: c). repeat split; auto; constructor.
  - apply Ev_Definition_nil.
Qed.
Theorem open_comment_panics text defs c : parse text = Parsed defs -> NoBlank (47%N :: c) -> parse (text ++ 47%N :: c) = Panicked.
Proof.
  intros Hp Hb. assert (E := Definitions_rest _ _ _ Hp Hb (slash_Fails _ Hb)). unfold parse. rewrite E. reflexivity.
Qed.
(** A closed line comment is skipped. *)
Theorem closed_comment text defs c : parse text = Parsed defs -> defs <> [] -> ~ In 10%N c ->
  parse (text ++ 47%N :: 47%N :: c ++ [10%N]) = Parsed defs.
Proof.
  intros H Hn Hc. apply (parse_blank_around [] (47%N :: 47%N :: c ++ [10%N])); auto; [constructor|].
  rewrite <- (app_nil_r (_ :: _)). apply Blank_cons; [|constructor]. apply BI_line. auto.
Qed.
