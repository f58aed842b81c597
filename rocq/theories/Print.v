(** * Printing trees, and what the tokens of an accepted text say about it *)
From Coq Require Import String Ascii NArith Arith Bool List Lia.
From Verif Require Import Nom Lex Ast Grammar Spec LexFacts NumFacts TokFacts RunFacts Shapes TermFacts Api ApiFacts LexProps
  Tok TokRun TokSound TokComplete TokMembers Shows Exact.
Import ListNotations.
Open Scope list_scope.

(** ** The printer: identifiers escaped, one space between tokens, optional commas left out *)
Definition canon (x : gtok) : list tok :=
  match x with
  | GKw s => [TName false (str s)]
  | GP s => [TPunct s]
  | GId _ n | GTy _ n => [TName true n]
  | GOptComma => []
  | GNegInf => [TNegInf]
  | GInt l => [TInt l]
  | GFloat s => [TFloat s]
  | GStr s => [TStr s]
  end.
Fixpoint layout (ts : list tok) : text :=
  match ts with
  | [] => []
  | [t] => spell t
  | t :: ts' => spell t ++ 32%N :: layout ts'
  end.
Definition print (defs : Definitions) : text := layout (flat_map canon (show_Definitions defs)).

(** Names, numbers and strings in the tree are spelled as such. *)
Definition lexical (x : gtok) : Prop :=
  match x with
  | GId _ n | GTy _ n => NameLex n
  | GInt l => IntLex l
  | GFloat s => FloatLex s
  | GStr s => ~ In 34%N s
  | _ => True
  end.
Definition wf_lexemes (defs : Definitions) : Prop := Forall lexical (show_Definitions defs).

Lemma canon_Conc g : Conc g (flat_map canon g) [].
Proof. induction g as [|[] g IH]; cbn; constructor; auto. Qed.

(** Keywords and punctuation of the printers are valid tokens. *)
Definition fixed (x : gtok) : Prop :=
  match x with
  | GKw s => NameLex (str s)
  | GP s => In s puncts
  | _ => True
  end.
Lemma easy_fixed x : easy x = true -> fixed x.
Proof.
  destruct x as [s|s| | | | | | |]; cbn; auto.
  - apply NameLex_dec.
  - intros H. rewrite !orb_true_iff in H. unfold puncts.
    repeat (destruct H as [H|H]; [apply String.eqb_eq in H; subst; cbn; tauto|]). discriminate.
Qed.
Lemma show_fixed defs : Forall fixed (show_Definitions defs).
Proof.
  apply Forall_flat_map. apply Forall_forall. intros d _.
  assert (Hb : fixed (GP "{") /\ fixed (GP "}") /\ fixed (GP ";")) by (cbn; tauto). destruct Hb as (H1 & H2 & H3).
  assert (HB : Block (Forall fixed) (show_Definition d)).
  { apply B_Definition; auto.
    - intros g h Hg Hh. apply Forall_app; auto.
    - intros x Hx. constructor; auto using easy_fixed.
    - intros g Hg. constructor; auto. apply Forall_app; auto. }
  assert (HL : forall g, Line (Forall fixed) g -> Forall fixed g).
  { intros g (h & -> & Hh). apply Forall_app; auto. }
  destruct HB as [g Hg|g ls Hg Hls]; auto. apply Forall_app. split; auto. constructor; auto. apply Forall_app. split; auto.
  apply Forall_concat. eapply Forall_impl; [|exact Hls]. exact HL.
Qed.
Lemma canon_valid g : Forall fixed g -> Forall lexical g -> Forall valid_tok (flat_map canon g).
Proof.
  intros H H'. induction H as [|x g Hx Hg IH]; cbn; [constructor|]. inversion H'; subst. apply Forall_app. split; auto.
  destruct x; cbn; constructor; cbn; auto.
Qed.

(** A blank ends every token. *)
Lemma blank_ends t c r : ~ num_char c -> ~ name_char c -> ends_ok t (c :: r).
Proof.
  intros Hc Hn. assert (H : forall s, num_ends s (c :: r)).
  { intros s x y E Hx HN. destruct x as [|d x]; [congruence|]. injection E as <- _. apply NumLex_chars in HN.
    apply Forall_app in HN as [_ HN]. inversion HN; subst. auto. }
  assert (H2 : name_ends (c :: r)). { intros d r' [= <- _]. auto. }
  destruct t; cbn; auto.
Qed.
Lemma nil_ends t : ends_ok t [].
Proof.
  assert (H : forall s, num_ends s []). { intros s x y E Hx. destruct x; [congruence|discriminate]. }
  assert (H2 : name_ends []). { intros d r' E. discriminate. }
  destruct t; cbn; auto.
Qed.
Lemma layout_Lay ts : Forall valid_tok ts -> Lay (layout ts) ts [].
Proof.
  intros H. induction H as [|t ts Ht Hts IH]; [constructor|]. destruct ts as [|t2 ts].
  - cbn [layout]. rewrite <- (app_nil_r (spell t)). change (Lay (spell t ++ [] ++ []) [t] []).
    apply Lay_cons; auto; try constructor. apply nil_ends.
  - change (Lay (spell t ++ [32%N] ++ layout (t2 :: ts)) (t :: t2 :: ts) []). apply Lay_cons; auto.
    + apply blank_ends; unfold num_char, name_char, hexdigit, letter, digit; ulia.
    + apply (Blank_cons [32%N] []); [|constructor]. apply BI_char. unfold blank_char. auto.
Qed.

Theorem parse_print defs : wf_Definitions defs -> wf_lexemes defs -> parse (print defs) = Parsed defs.
Proof.
  intros Hw Hl. apply parse_complete with (ts := flat_map canon (show_Definitions defs)); auto.
  - exists [], (print defs). repeat split; auto; [constructor|]. apply layout_Lay, canon_valid; auto using show_fixed.
  - apply canon_Conc.
Qed.

Lemma Lay_valid i ts r : Lay i ts r -> Forall valid_tok ts.
Proof. induction 1; constructor; auto. Qed.
Lemma Conc_lexical g i r : Conc g i r -> Forall valid_tok i -> Forall lexical g.
Proof. induction 1; intros H'; constructor; cbn; auto; inversion H'; subst; auto. Qed.
Theorem parse_lexical raw defs : parse raw = Parsed defs -> wf_Definitions defs /\ wf_lexemes defs.
Proof.
  intros H. apply parse_sound in H as (ts & (w & b & -> & _ & _ & Hl) & HS & HW). split; auto.
  eapply Conc_lexical; eauto using Lay_valid.
Qed.
Theorem parse_print_parse raw defs : parse raw = Parsed defs -> parse (print defs) = Parsed defs.
Proof. intros H. apply parse_lexical in H as [H1 H2]. apply parse_print; auto. Qed.
Theorem parse_range defs : (exists raw, parse raw = Parsed defs) <-> wf_Definitions defs /\ wf_lexemes defs.
Proof. split; [intros [raw H]; eapply parse_lexical; eauto|]. intros [H1 H2]. exists (print defs). apply parse_print; auto. Qed.
(** The printer is injective on the trees that can be parsed. *)
Theorem print_injective d d' : wf_Definitions d -> wf_lexemes d -> wf_Definitions d' -> wf_lexemes d' -> print d = print d' -> d = d'.
Proof. intros H1 H2 H3 H4 E. apply parse_print in H1; auto. apply parse_print in H3; auto. congruence. Qed.

(** ** Names and literals are pieces of the text, in order *)

(** [Slices l i]: the texts in [l] occur in [i] one after the other, without overlap. *)
Inductive Slices : list text -> text -> Prop :=
| Slices_nil i : Slices [] i
| Slices_cons x s l i : Slices l i -> Slices (s :: l) (x ++ s ++ i).
(** The names, numbers and strings of a tree, in the order of its concrete syntax. *)
Definition lexeme (x : gtok) : list text :=
  match x with
  | GId _ n | GTy _ n => [n]
  | GInt l => [int_text l]
  | GFloat s => [s]
  | GStr s => [s]
  | _ => []
  end.
Definition lexemes (defs : Definitions) : list text := flat_map lexeme (show_Definitions defs).

Lemma Slices_skip x l i : Slices l i -> Slices l (x ++ i).
Proof. intros H. destruct H as [|y s l i H]; [constructor|]. rewrite app_assoc. constructor. auto. Qed.
Lemma Slices_here x s y l i : Slices l i -> Slices (s :: l) ((x ++ s ++ y) ++ i).
Proof. intros H. rewrite <- !app_assoc. constructor. apply Slices_skip. auto. Qed.
Lemma Conc_Slices g ts us : Conc g ts us -> forall i r, Lay i ts r -> Slices (flat_map lexeme g) i.
Proof.
  induction 1; intros i' r' HL; cbn [flat_map lexeme app]; [constructor|..]; eauto;
    inversion HL as [|t' w' i'' ts' r'' Hv He Hw' Hl]; subst; try (apply Slices_skip, Slices_skip; eauto; fail);
    rewrite app_assoc; cbn [spell].
  - apply (Slices_here [95%N] n w'). eauto.
  - apply (Slices_here [] n w'). eauto.
  - apply (Slices_here [95%N] n w'). eauto.
  - apply (Slices_here [] n w'). eauto.
  - apply (Slices_here [] (int_text l) w'). eauto.
  - apply (Slices_here [] s w'). eauto.
  - replace (((34%N :: s ++ [34%N]) ++ w')) with ([34%N] ++ s ++ ([34%N] ++ w')) by (cbn; rewrite <- app_assoc; auto).
    apply (Slices_here [34%N] s ([34%N] ++ w')). eauto.
Qed.
Theorem parse_Slices raw defs : parse raw = Parsed defs -> Slices (lexemes defs) raw.
Proof.
  intros H. apply parse_sound in H as (ts & (w & b & -> & _ & _ & Hl) & HS & HW). apply Slices_skip.
  eapply Conc_Slices; eauto.
Qed.

(** ** Non-ASCII characters are in strings and comments *)
Definition ascii_char (c : char) : Prop := (c < 128)%N.
(** A single ASCII character, a blank or comment, or a string literal. *)
Definition piece (s : text) : Prop :=
  (exists c, s = [c] /\ ascii_char c) \/ BlankItem s \/ (exists q, s = 34%N :: q ++ [34%N] /\ ~ In 34%N q).

Lemma name_char_ascii c : name_char c -> ascii_char c.
Proof. unfold name_char, letter, digit, ascii_char. ulia. Qed.
Lemma num_char_ascii c : num_char c -> ascii_char c.
Proof. unfold num_char, hexdigit, ascii_char. ulia. Qed.
Lemma puncts_ascii s : In s puncts -> Forall ascii_char (str s).
Proof.
  cbn. intros H. repeat (destruct H as [<-|H]; [repeat constructor; unfold ascii_char; cbn; lia|]). destruct H.
Qed.
Lemma tok_ascii t : valid_tok t -> (exists s, t = TStr s) \/ Forall ascii_char (spell t).
Proof.
  assert (HN : forall n, NameLex n -> Forall ascii_char n).
  { intros n (c & w & -> & Hc & Hw). constructor.
    - apply name_char_ascii. left. auto.
    - eapply Forall_impl; [|exact Hw]. apply name_char_ascii. }
  assert (HD : forall s, NumLex s -> Forall ascii_char s).
  { intros s H. apply NumLex_chars in H. eapply Forall_impl; [|exact H]. apply num_char_ascii. }
  destruct t as [[] n|s| |l|s|s]; cbn [valid_tok spell]; intros H; eauto; right.
  - constructor; auto. unfold ascii_char. ulia.
  - apply puncts_ascii; auto.
  - repeat constructor; unfold ascii_char; ulia.
  - apply HD, IntLex_Num; auto.
  - apply HD. left. auto.
Qed.
Lemma ascii_pieces s : Forall ascii_char s -> exists ps, s = concat ps /\ Forall piece ps.
Proof.
  intros H. exists (map (fun c => [c]) s). split; [induction s; cbn; inversion H; subst; f_equal; auto|].
  induction H; constructor; auto. left. eauto.
Qed.
Lemma Blank_pieces w : Blank w -> exists ps, w = concat ps /\ Forall piece ps.
Proof.
  induction 1 as [|a b Ha Hb (ps & -> & Hp)]; [exists []; auto|]. exists (a :: ps). split; auto. constructor; auto. right. auto.
Qed.
Lemma app_pieces a b : (exists ps, a = concat ps /\ Forall piece ps) -> (exists ps, b = concat ps /\ Forall piece ps) ->
  exists ps, a ++ b = concat ps /\ Forall piece ps.
Proof.
  intros (p & -> & Hp) (q & -> & Hq). exists (p ++ q). rewrite concat_app. split; auto. apply Forall_app; auto.
Qed.
Lemma Lay_pieces i ts r : Lay i ts r -> r = [] -> exists ps, i = concat ps /\ Forall piece ps.
Proof.
  induction 1 as [r|t w i ts r Hv He Hw Hl IH]; intros E; [subst; exists []; auto|].
  apply app_pieces; [|apply app_pieces; auto using Blank_pieces].
  destruct (tok_ascii t Hv) as [(s & ->)|H]; [|apply ascii_pieces; auto].
  exists [34%N :: s ++ [34%N]]. cbn. rewrite app_nil_r. split; auto. constructor; auto. right. right. eauto.
Qed.
Theorem parse_ascii raw defs : parse raw = Parsed defs -> exists ts, Toks raw ts /\
  Forall (fun t => (exists s, t = TStr s) \/ Forall ascii_char (spell t)) ts.
Proof.
  intros H. apply parse_sound in H as (ts & HT & HS & HW). exists ts. split; auto.
  destruct HT as (w & b & _ & _ & _ & Hl). apply Lay_valid in Hl. eapply Forall_impl; [|exact Hl]. apply tok_ascii.
Qed.
Theorem parse_pieces raw defs : parse raw = Parsed defs -> exists ps, raw = concat ps /\ Forall piece ps.
Proof.
  intros H. apply parse_sound in H as (ts & (w & b & -> & Hw & _ & Hl) & HS & HW).
  apply app_pieces; [apply Blank_pieces; auto|]. eapply Lay_pieces; eauto.
Qed.

(** ** Semicolons *)

(** The number of semicolons outside of braces, [d] braces being open. *)
Fixpoint closers (d : nat) (ts : list tok) : nat :=
  match ts with
  | [] => 0
  | t :: ts' =>
      match t with
      | TPunct "{" => closers (S d) ts'
      | TPunct "}" => closers (pred d) ts'
      | TPunct ";" => (if d then 1 else 0) + closers d ts'
      | _ => closers d ts'
      end
  end%string.
(** Concrete syntax that has no semicolon and matching braces. *)
Definition neutral (g : list gtok) : Prop := forall i r d, Conc g i r -> closers d i = closers d r.
Lemma neutral_one x : easy x = true -> neutral [x].
Proof.
  intros H i r d HC. inversion HC as [r' E|s g i' r' HC'|s g i' r' HC'|b n g i' r' HC'|b n g i' r' Hn HC'|b n g i' r' HC'|b n g i' r' Hn Hf HC'|g i' r' HC'|g i' r' HC'|g i' r' HC'|l g i' r' HC'|s g i' r' HC'|s g i' r' HC']; subst;
    inversion HC'; subst; auto.
  cbn in H. rewrite !orb_true_iff in H.
  repeat (destruct H as [H|H]; [apply String.eqb_eq in H; subst; reflexivity|]). discriminate.
Qed.
Lemma neutral_app g h : neutral g -> neutral h -> neutral (g ++ h).
Proof. intros Hg Hh i r d H. apply Conc_split in H as (j & H1 & H2). rewrite (Hg _ _ d H1). auto. Qed.
Lemma neutral_braces g : neutral g -> neutral (GP "{" :: g ++ [GP "}"]).
Proof.
  intros Hg i r d H. inversion H as [| |s g' i' r' H1| | | | | | | | | |]; subst. apply Conc_split in H1 as (j & H1 & H2).
  cbn. rewrite (Hg _ _ (S d) H1). inversion H2 as [| |s g' i2 r' H3| | | | | | | | | |]; subst. inversion H3; subst. reflexivity.
Qed.
Lemma Line_closers g i r d : Line neutral g -> Conc g i r -> closers d i = (if d then 1 else 0) + closers d r.
Proof.
  intros (h & -> & Hh) H. apply Conc_split in H as (j & H1 & H2). rewrite (Hh _ _ d H1).
  inversion H2 as [| |s g' i2 r' H3| | | | | | | | | |]; subst. inversion H3; subst. reflexivity.
Qed.
Lemma Lines_closers ls : Forall (Line neutral) ls -> forall i r d, Conc (concat ls) i r -> closers (S d) i = closers (S d) r.
Proof.
  induction 1 as [|g ls Hg Hls IH]; cbn [concat]; intros i r d H; [inversion H; auto|].
  apply Conc_split in H as (j & H1 & H2). rewrite (Line_closers _ _ _ (S d) Hg H1). cbn. auto.
Qed.
Lemma Definition_closers d i r : Conc (show_Definition d) i r -> closers 0 i = S (closers 0 r).
Proof.
  intros H. assert (HB : Block neutral (show_Definition d)).
  { apply B_Definition; auto using neutral_one, neutral_app, neutral_braces. intros i' r' d' H'. inversion H'; auto. }
  destruct HB as [g Hg|g ls Hg Hls].
  - apply (Line_closers _ _ _ 0 Hg H).
  - apply Conc_split in H as (j & H1 & H). rewrite (Hg _ _ 0 H1).
    inversion H as [| |s g' i' r' H2| | | | | | | | | |]; subst. apply Conc_split in H2 as (k & H2 & H3). cbn.
    rewrite (Lines_closers _ Hls _ _ 0 H2).
    inversion H3 as [| |s g' i2 r' H4| | | | | | | | | |]; subst. inversion H4 as [| |s g' i3 r' H5| | | | | | | | | |]; subst. inversion H5; subst. reflexivity.
Qed.
Lemma Definitions_closers defs : forall i r, Conc (show_Definitions defs) i r -> closers 0 i = length defs + closers 0 r.
Proof.
  induction defs as [|d l IH]; cbn; intros i r H; [inversion H; auto|]. apply Conc_split in H as (j & H1 & H2).
  rewrite (Definition_closers _ _ _ H1). cbn. f_equal. auto.
Qed.

Lemma fuses_more n i r : fuses n i -> fuses n (i ++ r).
Proof.
  intros [[-> (x & [->| ->])]|[-> (x & [->| ->])]]; [left|left|right|right]; (split; [auto|]); cbn; eauto.
Qed.
Lemma Conc_restrict g i r : Conc g i r -> exists us, i = us ++ r /\ Conc g us [].
Proof.
  induction 1; try destruct IHConc as (us & -> & HC); try (eexists (_ :: us); split; [reflexivity|constructor; auto]; fail).
  - exists []. split; auto. constructor.
  - exists (TName false n :: us). split; auto. apply Conc_ty_raw; auto. intros K. apply (fuses_more _ _ r) in K. auto.
  - exists us. split; auto. constructor. auto.
Qed.
(** The tokens of each definition. *)
Lemma Definitions_split defs : forall i, Conc (show_Definitions defs) i [] -> exists tss, i = concat tss /\
  Forall2 (fun d us => Conc (show_Definition d) us []) defs tss.
Proof.
  induction defs as [|d l IH]; cbn; intros i H; [inversion H; exists []; auto|]. apply Conc_split in H as (j & H1 & H2).
  apply Conc_restrict in H1 as (us & -> & H1). apply IH in H2 as (tss & -> & H2). exists (us :: tss). auto.
Qed.
Theorem parse_semicolons raw defs : parse raw = Parsed defs -> exists tss, Toks raw (concat tss) /\
  Forall2 (fun d us => Conc (show_Definition d) us [] /\ closers 0 us = 1 /\ exists init, us = init ++ [TPunct ";"]) defs tss.
Proof.
  intros H. apply parse_sound in H as (ts & HT & HS & HW). destruct (Definitions_split _ _ HS) as (tss & -> & H).
  exists tss. split; auto. clear - H. induction H as [|d us l tss Hd Hl IH]; constructor; auto. repeat split; auto.
  - rewrite (Definition_closers _ _ _ Hd). reflexivity.
  - apply (Sentence_end [d]); [|discriminate]. unfold show_Definitions. cbn. rewrite app_nil_r. auto.
Qed.
Theorem parse_closers raw defs ts : parse raw = Parsed defs -> Toks raw ts ->
  closers 0 ts = length defs /\ (defs <> [] -> exists init, ts = init ++ [TPunct ";"]).
Proof.
  intros H HT. apply parse_sound in H as (ts' & HT' & HS & HW). rewrite (Toks_unique _ _ _ HT HT'). split.
  - rewrite (Definitions_closers _ _ _ HS). cbn. lia.
  - intros Hn. eapply Sentence_end; eauto.
Qed.

(** ** Accepted texts can be cut between definitions *)
Lemma Lay_cut ts us : forall i, Lay i (ts ++ us) [] -> exists a b, i = a ++ b /\ Lay a ts [] /\ Lay b us [].
Proof.
  induction ts as [|t ts IH]; cbn [app]; intros i H; [exists [], i; repeat split; auto; constructor|].
  inversion H as [|t' w i' ts' r Hv He Hw Hl]; subst. apply IH in Hl as (a & b & -> & Ha & Hb).
  exists (spell t ++ w ++ a), b. rewrite <- !app_assoc. repeat split; auto. apply Lay_cons; auto.
  apply (ends_ok_prefix _ _ b). rewrite <- app_assoc. auto.
Qed.
Lemma wf_app x y : wf_Definitions (x ++ y) <-> wf_Definitions x /\ wf_Definitions y.
Proof. unfold wf_Definitions. induction x; cbn; tauto. Qed.
Theorem parse_cut raw x y : parse raw = Parsed (x ++ y) ->
  exists a b, raw = a ++ b /\ parse a = Parsed x /\ parse b = Parsed y.
Proof.
  intros H. destruct x as [|d x]. { exists [], raw. auto. }
  destruct y as [|e y]. { rewrite app_nil_r in H. exists raw, []. rewrite app_nil_r. auto. }
  apply parse_sound in H as (ts & (w & i & -> & Hw & _ & Hl) & HS & HW). apply wf_app in HW as [HW1 HW2].
  unfold Sentence, show_Definitions in HS. rewrite flat_map_app in HS. apply Conc_split in HS as (us & H1 & H2).
  apply Conc_restrict in H1 as (ts1 & -> & H1). apply Lay_cut in Hl as (a & b & -> & Ha & Hb).
  exists (w ++ a), b. split; [apply app_assoc|]. split.
  - apply parse_complete with (ts := ts1); auto. exists w, a. repeat split; auto. intros ->.
    destruct (Sentence_end _ _ _ H1) as (init & E); [discriminate|]. destruct init; discriminate.
  - apply parse_complete with (ts := us); auto. exists [], b. repeat split; auto. constructor.
Qed.
