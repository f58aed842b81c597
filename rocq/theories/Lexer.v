(** * Splitting a text into tokens, computed *)
From Coq Require Import String Ascii NArith Arith Bool List Lia.
From Verif Require Import Nom Lex Ast Grammar Spec LexFacts NumFacts TokFacts RunFacts Shapes TermFacts Api ApiFacts LexProps Tok
  TokRun Exact.
Import ListNotations.
Open Scope list_scope.

Definition escaped (i : text) : bool := match sp i with Ok (c :: _) _ => N.eqb c 95 | _ => false end.
Definition punct_terms : list term :=
  [OpenParen; CloseParen; OpenBracket; CloseBracket; OpenBrace; CloseBrace; Comma; Ellipsis; Colon; SemiColon; LessThan; Assign;
   GreaterThan; QMark; Asterisk].
Fixpoint next_punct (l : list term) (i : text) : option (tok * text) :=
  match l with
  | [] => None
  | t :: l' => match p_term t i with Ok r _ => Some (term_tok t, r) | _ => next_punct l' i end
  end.
(** The first token of a text, and the text behind it and its blanks. *)
Definition next (i : text) : option (tok * text) :=
  match p_Identifier i with
  | Ok r n => Some (TName (escaped i) n, r)
  | _ =>
      match p_StringLit i with
      | Ok r s => Some (TStr s, r)
      | _ =>
          match p_FloatValueLit i with
          | Ok r s => Some (TFloat s, r)
          | _ =>
              match p_IntegerLit i with
              | Ok r l => Some (TInt l, r)
              | _ => match p_term NegInfinity i with Ok r _ => Some (TNegInf, r) | _ => next_punct punct_terms i end
              end
          end
      end
  end.
Lemma escaped_At e n i r : At (TName e n) i r -> escaped i = e.
Proof.
  intros (w & w' & -> & Hw & Hv & He & Hw' & Hr). unfold escaped.
  rewrite (sp_eq w) by (auto; apply spell_NoBlank; auto). destruct e; cbn [spell app]; auto.
  destruct Hv as (c & x & -> & Hc & _). cbn [app]. apply N.eqb_neq. intros ->. unfold letter in Hc. lia.
Qed.
Lemma next_punct_spec l i : (forall t, In t l -> not_minus_dot t) ->
  match next_punct l i with Some (t, r) => At t i r | None => forall t r, In t l -> ~ At (term_tok t) i r end.
Proof.
  induction l as [|t l IH]; intros H; cbn [next_punct]; [intros t r []|].
  destruct (Fine_cases _ (p_term t) i) as [(r & n & E)|(q6 & k6 & E6)]; auto with fine.
  - rewrite E. apply p_term_At in E; auto. apply H. left. auto.
  - rewrite E6. assert (H' : forall t, In t l -> not_minus_dot t) by (intros; apply H; right; auto). specialize (IH H').
    destruct (next_punct l i) as [[u r]|]; auto. intros u r [<-|Hu]; [|auto]. intros HA.
    apply (p_term_At t i r tt) in HA; [congruence|]. apply H; left; auto.
Qed.
Lemma next_spec i : match next i with Some (t, r) => At t i r | None => forall t r, ~ At t i r end.
Proof.
  unfold next.
  destruct (Fine_cases _ p_Identifier i) as [(r & n & E)|(q & k & E1)]; auto with fine.
  { rewrite E. apply p_Identifier_At in E as [e E]. rewrite (escaped_At _ _ _ _ E). auto. } rewrite E1.
  destruct (Fine_cases _ p_StringLit i) as [(r & n & E)|(q2 & k2 & E2)]; auto with fine.
  { rewrite E. apply p_StringLit_At in E. auto. } rewrite E2.
  destruct (Fine_cases _ p_FloatValueLit i) as [(r & n & E)|(q3 & k3 & E3)]; auto with fine.
  { rewrite E. apply p_FloatValueLit_At in E. auto. } rewrite E3.
  assert (Hf : forall s r', p_FloatValueLit i <> Ok r' s) by (intros; rewrite E3; discriminate).
  destruct (Fine_cases _ p_IntegerLit i) as [(r & n & E)|(q4 & k4 & E4)]; auto with fine.
  { rewrite E. apply p_IntegerLit_At in E; auto. } rewrite E4.
  destruct (Fine_cases _ (p_term NegInfinity) i) as [(r & n & E)|(q5 & k5 & E5)]; auto with fine.
  { rewrite E. apply p_term_At in E; [|exact Logic.I]. auto. } rewrite E5.
  pose proof (next_punct_spec punct_terms i) as H.
  destruct (next_punct punct_terms i) as [[u r]|].
  { apply H. intros t Ht. repeat (destruct Ht as [<-|Ht]; [exact Logic.I|]). destruct Ht. }
  assert (K : forall t r, In t punct_terms -> ~ At (term_tok t) i r).
  { apply H. intros t Ht. repeat (destruct Ht as [<-|Ht]; [exact Logic.I|]). destruct Ht. }
  intros t r HA. destruct t as [e n|s| |l|s|s].
  - assert (p_Identifier i = Ok r n) by (apply p_Identifier_At; eauto). congruence.
  - assert (Hs : In s puncts) by (destruct HA as (w & w' & _ & _ & Hv & _); exact Hv).
    repeat (destruct Hs as [<-|Hs]; [revert HA;
      first [ apply (K OpenParen) | apply (K CloseParen) | apply (K OpenBracket) | apply (K CloseBracket)
            | apply (K OpenBrace) | apply (K CloseBrace) | apply (K Comma) | apply (K Ellipsis) | apply (K Colon)
            | apply (K SemiColon) | apply (K LessThan) | apply (K Assign) | apply (K GreaterThan) | apply (K QMark)
            | apply (K Asterisk)]; cbn; tauto|]).
    destruct Hs.
  - apply (p_term_At NegInfinity i r tt) in HA; [congruence|exact Logic.I].
  - apply p_IntegerLit_At in HA; auto. congruence.
  - apply p_FloatValueLit_At in HA. congruence.
  - apply p_StringLit_At in HA. congruence.
Qed.

(** All tokens of a text, and the rest where no token starts. *)
Fixpoint lex_fuel (n : nat) (i : text) : list tok * text :=
  match n with
  | O => ([], i)
  | S n' => match next i with
            | Some (t, r) => let '(ts, r0) := lex_fuel n' r in (t :: ts, r0)
            | None => ([], match sp i with Ok r _ => r | _ => i end)
            end
  end.
Definition lex (i : text) : list tok * text := lex_fuel (S (length i)) i.

Lemma lex_fuel_spec n : forall i, length i < n -> Stuck (snd (lex_fuel n i)) /\ Rd (snd (lex_fuel n i)) i (fst (lex_fuel n i)).
Proof.
  induction n as [|n IH]; intros i Hn; [lia|]. cbn [lex_fuel]. pose proof (next_spec i) as H. destruct (next i) as [[t r]|].
  - pose proof (At_shorter _ _ _ H). destruct (IH r) as [H1 (w & b & E & Hw & Hl)]; [lia|].
    destruct (lex_fuel n r) as [ts r0]. cbn [fst snd] in *. split; auto. subst r.
    destruct H as (w1 & w2 & -> & Hw1 & Hv & He & Hw2 & Hr). exists w1, (spell t ++ (w2 ++ w) ++ b). rewrite <- !app_assoc.
    repeat split; auto. replace (spell t ++ w2 ++ w ++ b) with (spell t ++ (w2 ++ w) ++ b) by (rewrite <- app_assoc; auto).
    constructor; auto. rewrite <- app_assoc; auto. apply Blank_app; auto.
  - destruct (sp_spec i) as (w & b & -> & -> & Hw & Hb). cbn [fst snd]. split; [split; auto|].
    + intros t r (w1 & w2 & E & Hw1 & Hv & He & Hw2 & Hr). apply (H t r). exists (w ++ w1), w2.
      rewrite E, <- !app_assoc. repeat split; auto. apply Blank_app; auto.
    + exists w, b. repeat split; auto. constructor.
Qed.
Lemma lex_spec i : Stuck (snd (lex i)) /\ Rd (snd (lex i)) i (fst (lex i)).
Proof. apply lex_fuel_spec. unfold lex. lia. Qed.

(** The split is unique. *)
Lemma Lay_split_unique i ts r : Lay i ts r -> Stuck r -> forall ts' r', Lay i ts' r' -> Stuck r' -> ts = ts' /\ r = r'.
Proof.
  induction 1 as [r|t w i ts r Hv He Hw Hl IH]; intros Hr ts' r' Hl' Hr'.
  - inversion Hl' as [r1 E|t' w' i' ts2 r2 Hv' He' Hw' Hl2 E]; subst; auto.
    exfalso. apply (proj2 Hr t' i'). exists [], w'. repeat split; auto; try constructor. eapply Lay_NoBlank; eauto. apply Hr'.
  - assert (Hn : NoBlank i) by (eapply Lay_NoBlank; eauto; apply Hr).
    assert (H1 : At t (spell t ++ w ++ i) i) by (exists [], w; repeat split; auto; constructor).
    inversion Hl' as [r1 E|t' w' i' ts2 r2 Hv' He' Hw' Hl2 E]; subst.
    + exfalso. eapply (proj2 Hr'); eauto.
    + assert (Hn' : NoBlank i') by (eapply Lay_NoBlank; eauto; apply Hr').
      assert (H2 : At t' (spell t ++ w ++ i) i') by (exists [], w'; repeat split; auto; constructor).
      destruct (At_det _ _ _ _ _ H1 H2) as [<- <-]. destruct (IH Hr _ _ Hl2 Hr') as [-> ->]. auto.
Qed.
Lemma Rd_unique i ts ts' r r' : Rd r i ts -> Stuck r -> Rd r' i ts' -> Stuck r' -> ts = ts' /\ r = r'.
Proof.
  intros (w & b & -> & Hw & Hl) Hr (w' & b' & E & Hw' & Hl') Hr'.
  assert (Hb : NoBlank b) by (eapply Lay_NoBlank; eauto; apply Hr).
  assert (Hb' : NoBlank b') by (eapply Lay_NoBlank; eauto; apply Hr').
  destruct (Blank_unique _ Hw _ _ _ Hw' Hb Hb' E) as [_ <-]. eapply Lay_split_unique; eauto.
Qed.
Theorem lex_exact i ts r : lex i = (ts, r) <-> Rd r i ts /\ Stuck r.
Proof.
  destruct (lex_spec i) as [H1 H2]. split; [intros E; rewrite E in *; auto|]. intros [H H'].
  destruct (Rd_unique _ _ _ _ _ H2 H1 H H') as [<- <-]. destruct (lex i); auto.
Qed.
Theorem Toks_lex i ts : Toks i ts <-> lex i = (ts, []) /\ (ts = [] -> i = []).
Proof.
  rewrite lex_exact. split.
  - intros (w & b & -> & Hw & Hn & Hl). split; [split; [exists w, b; auto|apply Stuck_nil]|]. intros E. rewrite (Hn E). subst.
    inversion Hl. auto.
  - intros [[(w & b & -> & Hw & Hl) _] Hn]. exists w, b. repeat split; auto. intros E. specialize (Hn E). destruct w; auto. discriminate.
Qed.
