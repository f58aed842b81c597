(** * The parser without a lexer does what a lexer followed by a parser on tokens does *)
From Coq Require Import String Ascii NArith Arith Bool List Lia.
From Verif Require Import Nom Lex Ast Grammar Spec LexFacts NumFacts TokFacts RunFacts Shapes TermFacts Api ApiFacts LexProps
  Tok TokRun TokSound TokComplete TokMembers Shows Exact Print Lexer.
Import ListNotations.
Open Scope list_scope.

(** Second phase: the grammar on tokens. *)
Definition parse_toks {A} (p : pexp A) (n : nat) (ts : list tok) : res (list tok) A := krun n A p ts.

(** What is left when the tokens [ts'] of the tokens of [s] are left: [s] itself if nothing was read, else the text that begins
    with the first of these tokens. *)
Definition left_over (s : text) (ts' : list tok) (r : text) : Prop :=
  (r = s /\ ts' = fst (lex s)) \/ (lex r = (ts', snd (lex s)) /\ NoBlank r /\ length ts' < length (fst (lex s))).

Theorem scan_parse b A (p : pexp A) s : Impl b A p -> Plain p ->
  match parse_as p s, parse_toks p (S (length s)) (fst (lex s)) with
  | Ok r a, Ok ts' a' => a = a' /\ left_over s ts' r
  | Err _, Err _ => True
  | _, _ => False
  end.
Proof.
  intros HI HP. destruct (lex_spec s) as [H0 HR]. pose proof (Impl_Shape _ _ _ HI) as HS.
  pose proof (run_Sim _ H0 (S (length s)) A p HP s _ HR) as H. pose proof (parse_not_Diverge _ _ _ s HS) as Hd.
  unfold parse_as, parse_toks in *. unfold SimR in H.
  destruct (trun (S (length s)) A p s) as [r a|e|]; [| |congruence].
  - destruct (krun (S (length s)) A p (fst (lex s))) as [ts' a'|e|]; auto. destruct H as [-> H]. split; auto.
    destruct H as [[-> ->]|(H1 & H2 & _ & H3 & _)]; [left; auto|]. right. split; auto. apply lex_exact. split; auto.
    apply Rd_Lay; auto.
  - destruct e; try contradiction. destruct (krun (S (length s)) A p (fst (lex s))) as [ts' a'|[]|]; auto.
Qed.

(** [parse] in two phases. *)
Definition two_phases (raw : text) : outcome :=
  match lex raw with
  | (ts, []) => match parse_toks e_Definitions (S (length raw)) ts with
                | Ok [] defs => match ts, raw with [], _ :: _ => Panicked | _, _ => Parsed defs end
                | _ => Panicked
                end
  | _ => Panicked
  end.
Theorem parse_two_phases raw : parse raw = two_phases raw.
Proof.
  pose proof (scan_parse _ _ _ raw I_Definitions P_Defs) as H. unfold two_phases.
  destruct (lex_spec raw) as [H0 HR]. destruct (lex raw) as [ts r0] eqn:El. cbn [fst snd] in *.
  destruct (parse_outcome raw) as [(d & E & _)|[E _]]; rewrite E.
  - pose proof E as E'. apply parse_sound in E' as (ts' & HT & _). apply Toks_lex in HT as [HT Hn]. rewrite HT in El. injection El as <- <-.
    apply parse_iff in E. rewrite E in H. destruct (parse_toks e_Definitions _ _) as [us a'|e|]; try contradiction. destruct H as [<- H].
    assert (us = []) as ->.
    { destruct H as [[Er Hu]|(H1 & _)].
      - subst raw. rewrite HT in Hu. cbn in Hu. subst. change (lex []) with (@nil tok, @nil char) in HT. injection HT as <-. auto.
      - change (lex []) with (@nil tok, @nil char) in H1. injection H1 as <- _. auto. }
    destruct ts' as [|t ts']; auto. rewrite (Hn eq_refl). auto.
  - assert (Hn : forall a, parse raw <> Parsed a) by (intros a; congruence).
    destruct r0 as [|c r0]; auto. destruct (parse_as e_Definitions raw) as [r a|e|] eqn:Ep; destruct (parse_toks e_Definitions _ _) as [us a'|e'|]; try contradiction; auto.
    destruct H as [<- H]. destruct us as [|u us]; auto. destruct ts as [|t ts].
    + destruct raw; auto. exfalso. apply (Hn a). apply parse_iff. rewrite Ep. f_equal.
      destruct H as [[-> _]|(_ & _ & H)]; auto. cbn in H. lia.
    + exfalso. apply (Hn a). apply parse_iff. rewrite Ep. f_equal. destruct H as [[_ H]|(H & Hb & _)]; [rewrite El in H; discriminate|].
      rewrite El in H. cbn in H. apply lex_exact in H as [(w & b & -> & Hw & Hl) _]. apply Lay_nil_inv in Hl. subst.
      rewrite app_nil_r in *. destruct Hw as [|x y Hx Hy]; auto. exfalso. apply (Hb x y); auto.
Qed.
