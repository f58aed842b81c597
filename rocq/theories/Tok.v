(** * Parsing text is parsing its tokens.

    Every text splits into blanks, tokens and a rest that does not start with a token.  On such a text a parser of the
    grammar behaves exactly as it does on the list of tokens. *)
From Coq Require Import String Ascii NArith Arith Bool List Lia.
From Verif Require Import Nom Lex Ast Grammar Spec LexFacts NumFacts TokFacts RunFacts Shapes TermFacts Api ApiFacts LexProps.
Import ListNotations.
Open Scope list_scope.

(** ** The lexical layer on tokens *)
Definition int_eqb (l l' : IntegerLit) : bool :=
  match l, l' with
  | IntegerLit_Dec s, IntegerLit_Dec s' | IntegerLit_Hex s, IntegerLit_Hex s' | IntegerLit_Oct s, IntegerLit_Oct s' => text_eqb s s'
  | _, _ => false
  end.
Definition tok_eqb (t u : tok) : bool :=
  match t, u with
  | TName e n, TName e' n' => Bool.eqb e e' && text_eqb n n'
  | TPunct s, TPunct s' => String.eqb s s'
  | TNegInf, TNegInf => true
  | TInt l, TInt l' => int_eqb l l'
  | TFloat s, TFloat s' => text_eqb s s'
  | TStr s, TStr s' => text_eqb s s'
  | _, _ => false
  end.
Lemma tok_eqb_eq t u : tok_eqb t u = true <-> t = u.
Proof.
  destruct t, u; cbn; try (split; discriminate).
  - rewrite andb_true_iff, Bool.eqb_true_iff, text_eqb_spec. split; [intros [-> ->]; auto|intros [= -> ->]; auto].
  - rewrite String.eqb_eq. split; congruence.
  - tauto.
  - destruct l, l0; cbn; rewrite ?text_eqb_spec; split; congruence.
  - rewrite text_eqb_spec. split; congruence.
  - rewrite text_eqb_spec. split; congruence.
Qed.
Lemma tok_eqb_refl t : tok_eqb t t = true.
Proof. apply tok_eqb_eq. auto. Qed.

Definition tfail {A} : parser (list tok) A := fun ts => Err (Error ts KTag).

(** The values that the tokens [ts] start with. *)
Definition bool_of (n : text) : option bool :=
  if text_eqb n (str "true") then Some true else if text_eqb n (str "false") then Some false else None.
Definition float_of (n : text) : option FloatLit :=
  if text_eqb n (str "Infinity") then Some FloatLit_Infinity
  else if text_eqb n (str "NaN") then Some FloatLit_NaN else None.
Definition const_of (ts : list tok) : option (ConstValue * list tok) :=
  match ts with
  | TName false n :: r =>
      match bool_of n with
      | Some b => Some (ConstValue_Boolean b, r)
      | None => match float_of n with
                | Some f => Some (ConstValue_Float f, r)
                | None => if text_eqb n (str "null") then Some (ConstValue_Null, r) else None
                end
      end
  | TNegInf :: r => Some (ConstValue_Float FloatLit_NegInfinity, r)
  | TInt l :: r => Some (ConstValue_Integer l, r)
  | TFloat s :: r => Some (ConstValue_Float (FloatLit_Value s), r)
  | _ => None
  end.
Definition default_of (ts : list tok) : option (DefaultValue * list tok) :=
  match ts with
  | TStr s :: r => Some (DefaultValue_String s, r)
  | TPunct p :: TPunct q :: r =>
      if String.eqb p "[" && String.eqb q "]" then Some (DefaultValue_EmptyArray, r)
      else if String.eqb p "{" && String.eqb q "}" then Some (DefaultValue_EmptyDictionary, r) else None
  | _ => match const_of ts with
         | Some (ConstValue_Boolean b, r) => Some (DefaultValue_Boolean b, r)
         | Some (ConstValue_Float f, r) => Some (DefaultValue_Float f, r)
         | Some (ConstValue_Integer l, r) => Some (DefaultValue_Integer l, r)
         | Some (ConstValue_Null, r) => Some (DefaultValue_Null, r)
         | None => None
         end
  end.

Definition tok_sem (A : Type) (t : terminal A) : parser (list tok) A :=
  match t with
  | TmTerm t => fun ts => match ts with
                          | x :: r => if tok_eqb x (term_tok t) then Ok r tt else tfail ts
                          | [] => tfail ts
                          end
  | TmIdentifier => fun ts => match ts with TName _ n :: r => Ok r n | _ => tfail ts end
  | TmStringLit => fun ts => match ts with TStr s :: r => Ok r s | _ => tfail ts end
  | TmDefaultValue => fun ts => match default_of ts with Some (v, r) => Ok r v | None => tfail ts end
  | TmConstValue => fun ts => match const_of ts with Some (v, r) => Ok r v | None => tfail ts end
  end.

Lemma bool_of_ok n b : bool_of n = Some b <-> bool_toks b = [TName false n].
Proof.
  unfold bool_of, bool_toks. destruct (text_eqb n (str "true")) eqn:E1; [apply text_eqb_spec in E1; subst|].
  { split; [intros [= <-]; auto|destruct b; auto; discriminate]. }
  destruct (text_eqb n (str "false")) eqn:E2; [apply text_eqb_spec in E2; subst|].
  { split; [intros [= <-]; auto|destruct b; auto; discriminate]. }
  split; [discriminate|]. destruct b; intros [= <-]; discriminate.
Qed.
Lemma float_of_ok n f : float_of n = Some f <-> float_toks f = [TName false n].
Proof.
  unfold float_of, float_toks. destruct (text_eqb n (str "Infinity")) eqn:E1; [apply text_eqb_spec in E1; subst|].
  { split; [intros [= <-]; auto|destruct f; auto; discriminate]. }
  destruct (text_eqb n (str "NaN")) eqn:E2; [apply text_eqb_spec in E2; subst|].
  { split; [intros [= <-]; auto|destruct f; auto; discriminate]. }
  split; [discriminate|]. destruct f; intros [= <-]; discriminate.
Qed.
Lemma const_of_toks v r : const_of (const_toks v ++ r) = Some (v, r).
Proof. destruct v as [[]|[]| |]; reflexivity. Qed.
Lemma default_of_toks v r : default_of (default_toks v ++ r) = Some (v, r).
Proof. destruct v as [[]| | |[]| | |]; reflexivity. Qed.
Lemma const_of_ok ts v r : const_of ts = Some (v, r) <-> ts = const_toks v ++ r.
Proof.
  split; [|intros ->; apply const_of_toks]. destruct ts as [|[[] n|s| |l|s|s] ts]; cbn [const_of]; try discriminate.
  - destruct (bool_of n) eqn:E1.
    { intros [= <- <-]. apply bool_of_ok in E1. cbn [const_toks]. rewrite E1. reflexivity. }
    destruct (float_of n) eqn:E2.
    { intros [= <- <-]. apply float_of_ok in E2. cbn [const_toks]. rewrite E2. reflexivity. }
    destruct (text_eqb n (str "null")) eqn:E3; [apply text_eqb_spec in E3; subst|discriminate].
    intros [= <- <-]. reflexivity.
  - intros [= <- <-]. reflexivity.
  - intros [= <- <-]. reflexivity.
  - intros [= <- <-]. reflexivity.
Qed.
Lemma default_of_ok ts v r : default_of ts = Some (v, r) <-> ts = default_toks v ++ r.
Proof.
  split; [|intros ->; apply default_of_toks].
  assert (H : match const_of ts with
         | Some (ConstValue_Boolean b, r) => Some (DefaultValue_Boolean b, r)
         | Some (ConstValue_Float f, r) => Some (DefaultValue_Float f, r)
         | Some (ConstValue_Integer l, r) => Some (DefaultValue_Integer l, r)
         | Some (ConstValue_Null, r) => Some (DefaultValue_Null, r)
         | None => None
         end = Some (v, r) -> ts = default_toks v ++ r).
  { destruct (const_of ts) as [[w r']|] eqn:E; [|discriminate]. apply const_of_ok in E. subst.
    destruct w; intros [= <- <-]; reflexivity. }
  destruct ts as [|[[] n|s| |l|s|s] ts]; auto.
  - destruct ts as [|[[] n|s'| |l|s'|s'] ts]; auto. cbn [default_of].
    destruct (String.eqb s "[" && String.eqb s' "]") eqn:E.
    { apply andb_true_iff in E as [E1 E2]. apply String.eqb_eq in E1, E2. subst. intros [= <- <-]. reflexivity. }
    destruct (String.eqb s "{" && String.eqb s' "}") eqn:E'; [|discriminate].
    apply andb_true_iff in E' as [E1 E2]. apply String.eqb_eq in E1, E2. subst. intros [= <- <-]. reflexivity.
  - cbn. intros [= <- <-]. reflexivity.
Qed.

(** ** Texts split into tokens and a rest *)

(** No token at the beginning. *)
Definition Stuck (r0 : text) : Prop := NoBlank r0 /\ forall t r, ~ At t r0 r.

Lemma Stuck_nil : Stuck [].
Proof. split; [apply NoBlank_nil|]. intros t r H. apply At_shorter in H. cbn in H. lia. Qed.

Lemma Lay_NoBlank i ts r0 : Lay i ts r0 -> NoBlank r0 -> NoBlank i.
Proof. intros H H0. inversion H; subst; auto. apply spell_NoBlank; auto. Qed.

(** [Rd r0 i ts]: [i] is a blank, the tokens [ts] and [r0]. *)
Definition Rd (r0 i : text) (ts : list tok) : Prop := exists w b, i = w ++ b /\ Blank w /\ Lay b ts r0.

Lemma At_or_not i : (exists t r, At t i r) \/ (forall t r, ~ At t i r).
Proof.
  destruct (Fine_cases _ p_Identifier i) as [(r & n & E)|(q & k & E1)]; auto with fine.
  { apply p_Identifier_At in E as [e E]. eauto. }
  destruct (Fine_cases _ p_StringLit i) as [(r & n & E)|(q2 & k2 & E2)]; auto with fine.
  { apply p_StringLit_At in E. eauto. }
  destruct (Fine_cases _ p_FloatValueLit i) as [(r & n & E)|(q3 & k3 & E3)]; auto with fine.
  { apply p_FloatValueLit_At in E. eauto. }
  assert (Hf : forall s r', p_FloatValueLit i <> Ok r' s) by (intros; rewrite E3; discriminate).
  destruct (Fine_cases _ p_IntegerLit i) as [(r & n & E)|(q4 & k4 & E4)]; auto with fine.
  { apply p_IntegerLit_At in E; auto. eauto. }
  destruct (Fine_cases _ (p_term NegInfinity) i) as [(r & n & E)|(q5 & k5 & E5)]; auto with fine.
  { apply p_term_At in E; [|exact Logic.I]. eauto. }
  assert (Hp : forall l : list term, (forall t, In t l -> not_minus_dot t) ->
    (exists t r, At t i r) \/ (forall t r, In t l -> ~ At (term_tok t) i r)).
  { induction l as [|t l IH]; intros H; [right; intros ? ? []|].
    destruct (Fine_cases _ (p_term t) i) as [(r & n & E)|(q6 & k6 & E6)]; auto with fine.
    { apply p_term_At in E; [|apply H; left; auto]. eauto. }
    destruct IH as [IH|IH]; auto. { intros; apply H; right; auto. }
    right. intros u r [<-|Hu]; [|apply IH; auto]. intros HA. apply (p_term_At t i r tt) in HA; [congruence|].
    apply H; left; auto. }
  destruct (Hp [OpenParen; CloseParen; OpenBracket; CloseBracket; OpenBrace; CloseBrace; Comma; Ellipsis; Colon;
                SemiColon; LessThan; Assign; GreaterThan; QMark; Asterisk]) as [H|H]; auto.
  { intros t Ht. repeat (destruct Ht as [<-|Ht]; [exact Logic.I|]). destruct Ht. }
  right. intros t r HA. destruct t as [e n|s| |l|s|s].
  - assert (p_Identifier i = Ok r n) by (apply p_Identifier_At; eauto). congruence.
  - assert (Hs : In s puncts) by (destruct HA as (w & w' & _ & _ & Hv & _); exact Hv).
    repeat (destruct Hs as [<-|Hs]; [revert HA;
      match goal with |- At ?t _ _ -> _ => 
        let x := constr:(H) in
        first [ apply (H OpenParen) | apply (H CloseParen) | apply (H OpenBracket) | apply (H CloseBracket)
              | apply (H OpenBrace) | apply (H CloseBrace) | apply (H Comma) | apply (H Ellipsis) | apply (H Colon)
              | apply (H SemiColon) | apply (H LessThan) | apply (H Assign) | apply (H GreaterThan) | apply (H QMark)
              | apply (H Asterisk)] end; cbn; tauto|]).
    destruct Hs.
  - apply (p_term_At NegInfinity i r tt) in HA; [congruence|exact Logic.I].
  - apply p_IntegerLit_At in HA; auto. congruence.
  - apply p_FloatValueLit_At in HA. congruence.
  - apply p_StringLit_At in HA. congruence.
Qed.

Lemma tokenize i : exists ts r0, Stuck r0 /\ Rd r0 i ts.
Proof.
  induction i as [i IH] using (induction_ltof1 _ (@length _)). unfold ltof in IH.
  destruct (At_or_not i) as [(t & r & H)|H].
  - destruct (IH r (At_shorter _ _ _ H)) as (ts & r0 & H0 & w & b & -> & Hw & Hl).
    destruct H as (w1 & w2 & -> & Hw1 & Hv & He & Hw2 & Hr).
    exists (t :: ts), r0. split; auto. exists w1, (spell t ++ (w2 ++ w) ++ b). rewrite <- !app_assoc.
    repeat split; auto. replace (spell t ++ w2 ++ w ++ b) with (spell t ++ (w2 ++ w) ++ b) by (rewrite <- app_assoc; auto).
    constructor; auto. rewrite <- app_assoc; auto. apply Blank_app; auto.
  - destruct (blank_split i) as (w & b & -> & Hw & Hb). exists [], b. split; [split; auto|].
    + intros t r (w1 & w2 & E & Hw1 & Hv & He & Hw2 & Hr). apply (H t r). exists (w ++ w1), w2.
      rewrite E, <- !app_assoc. repeat split; auto. apply Blank_app; auto.
    + exists w, b. repeat split; auto. constructor.
Qed.

(** ** Text and tokens in step *)
Definition toks_same (a b : list tok) : bool := Nat.eqb (length a) (length b).
Notation krun := (run toks_same tok_sem).

Section Sim.
  Variable r0 : text.
  Hypothesis Hr0 : Stuck r0.
  Notation Rd := (Rd r0).

  Lemma Rd_At i ts t r : Rd i ts -> At t i r -> exists ts', ts = t :: ts' /\ Lay r ts' r0 /\ NoBlank r.
  Proof.
    intros (w & b & -> & Hw & Hl) H. inversion Hl; subst.
    - exfalso. destruct Hr0 as [Hn Hs]. destruct H as (w1 & w2 & E & Hw1 & Hv & He & Hw2 & Hr).
      apply Blank_unique in E as [-> E]; auto using spell_NoBlank.
      apply (Hs t r). exists [], w2. cbn. repeat split; auto. constructor.
    - assert (H' : At t0 (w ++ spell t0 ++ w0 ++ i) i).
      { exists w, w0. repeat split; auto. eapply Lay_NoBlank; eauto. apply Hr0. }
      destruct (At_det _ _ _ _ _ H H') as [-> ->]. exists ts0. repeat split; auto.
      eapply Lay_NoBlank; eauto. apply Hr0.
  Qed.
  Lemma Rd_cons i ts t : Rd i (t :: ts) -> exists r, At t i r /\ Lay r ts r0 /\ NoBlank r.
  Proof.
    intros (w & b & -> & Hw & Hl). inversion Hl; subst. assert (NoBlank i). { eapply Lay_NoBlank; eauto. apply Hr0. }
    exists i. repeat split; auto. exists w, w0. repeat split; auto.
  Qed.
  Lemma Rd_Lay i ts : Lay i ts r0 -> Rd i ts.
  Proof. intros H. exists [], i. repeat split; auto. constructor. Qed.
  Lemma Rd_Ats l : forall i ts r, Rd i ts -> Ats l i r -> l <> [] -> exists ts', ts = l ++ ts' /\ Lay r ts' r0 /\ NoBlank r.
  Proof.
    induction l as [|t l IH]; intros i ts r HR H Hn; [congruence|]. destruct H as (j & Hj & H).
    destruct (Rd_At _ _ _ _ HR Hj) as (ts' & -> & Hl & Hb). destruct l as [|t' l].
    - cbn in H. subst j. exists ts'. auto.
    - destruct (IH j ts' r (Rd_Lay _ _ Hl) H) as (ts'' & -> & H'); [discriminate|]. exists ts''. auto.
  Qed.
  Lemma Rd_app l : forall i ts, Rd i (l ++ ts) -> l <> [] -> exists r, Ats l i r /\ Lay r ts r0 /\ NoBlank r.
  Proof.
    induction l as [|t l IH]; intros i ts HR Hn; [congruence|]. cbn in HR.
    destruct (Rd_cons _ _ _ HR) as (j & Hj & Hl & Hb). destruct l as [|t' l].
    - exists j. repeat split; auto. exists j. split; auto. reflexivity.
    - destruct (IH j ts (Rd_Lay _ _ Hl)) as (r & H & H'); [discriminate|]. exists r. split; auto. exists j. auto.
  Qed.

  Lemma Ats_app u : forall v i j r, Ats u i j -> Ats v j r -> Ats (u ++ v) i r.
  Proof.
    induction u as [|t u IH]; cbn; intros v i j r H H'; [subst; auto|]. destruct H as (k & H1 & H2). exists k. eauto.
  Qed.

  (** From [i], [ts] to [r], [ts']: nothing happened, or tokens were consumed. *)
  Definition Step (i : text) (ts : list tok) (r : text) (ts' : list tok) : Prop :=
    (r = i /\ ts' = ts) \/
    (NoBlank r /\ Lay r ts' r0 /\ length r < length i /\ length ts' < length ts /\ exists used, ts = used ++ ts' /\ Ats used i r).
  Lemma Step_refl i ts : Step i ts i ts.
  Proof. left; auto. Qed.
  Lemma Step_trans i ts j us k vs : Step i ts j us -> Step j us k vs -> Step i ts k vs.
  Proof.
    intros [[-> ->]|H]; auto. intros [[-> ->]|H']; [right; auto|]. right.
    destruct H as (_ & _ & H1 & H2 & u & -> & H3), H' as (H4 & H5 & H6 & H7 & v & -> & H8). repeat split; auto; try lia.
    exists (u ++ v). rewrite app_assoc. split; auto. eapply Ats_app; eauto.
  Qed.
  Lemma Step_Rd i ts j us : Rd i ts -> Step i ts j us -> Rd j us.
  Proof. intros H [[-> ->]|(_ & H' & _)]; auto using Rd_Lay. Qed.
  Lemma Step_same i ts j us : Step i ts j us -> text_eqb j i = toks_same us ts.
  Proof.
    intros [[-> ->]|(_ & _ & H1 & H2)]; unfold toks_same.
    - rewrite text_eqb_refl, Nat.eqb_refl. auto.
    - rewrite not_same by auto. symmetry. apply Nat.eqb_neq. lia.
  Qed.

  Definition SimR {A} (i : text) (ts : list tok) (o : res text A) (o' : res (list tok) A) : Prop :=
    match o, o' with
    | Ok r a, Ok ts' a' => a = a' /\ Step i ts r ts'
    | Err (Error _ _), Err (Error _ _) => True
    | Diverge, Diverge => True
    | _, _ => False
    end.
  Definition Sim {A} (p : parser text A) (p' : parser (list tok) A) : Prop :=
    forall i ts, Rd i ts -> SimR i ts (p i) (p' ts).

  Lemma SimR_trans A i ts j us (o : res text A) o' : Step i ts j us -> SimR j us o o' -> SimR i ts o o'.
  Proof.
    intros H. destruct o as [r a|[]|], o' as [r' a'|[]|]; cbn; auto. intros [-> H']. split; auto.
    eapply Step_trans; eauto.
  Qed.

  Lemma Sim_ret A (a : A) : Sim (ret a) (ret a).
  Proof. intros i ts H. cbn. auto using Step_refl. Qed.
  Lemma Sim_bind A B (p : parser text A) p' (f : A -> parser text B) f' :
    Sim p p' -> (forall a, Sim (f a) (f' a)) -> Sim (bind p f) (bind p' f').
  Proof.
    intros Hp Hf i ts HR. unfold bind. specialize (Hp i ts HR).
    destruct (p i) as [r a|[]|], (p' ts) as [r' a'|[]|]; cbn in *; try contradiction; auto.
    destruct Hp as [<- Hs]. eapply SimR_trans; eauto. apply Hf. eapply Step_Rd; eauto.
  Qed.
  Lemma Sim_or A (p q : parser text A) p' q' : Sim p p' -> Sim q q' -> Sim (alt_or p q) (alt_or p' q').
  Proof.
    intros Hp Hq i ts HR. unfold alt_or. specialize (Hp i ts HR).
    destruct (p i) as [r a|[]|], (p' ts) as [r' a'|[]|]; cbn in *; try contradiction; auto.
  Qed.
  Lemma Sim_end A : Sim (@alt_end text A) alt_end.
  Proof. intros i ts H. exact Logic.I. Qed.
  Lemma Sim_opt A (p : parser text A) p' : Sim p p' -> Sim (opt p) (opt p').
  Proof.
    intros Hp i ts HR. unfold opt. specialize (Hp i ts HR).
    destruct (p i) as [r a|[]|], (p' ts) as [r' a'|[]|]; cbn in *; try contradiction; auto using Step_refl.
    destruct Hp as [-> ?]; auto.
  Qed.
  Lemma Sim_many0_loop A (p : parser text A) p' n : Sim p p' -> forall i ts acc, Rd i ts ->
    SimR i ts (many0_loop text_eqb n p i acc) (many0_loop toks_same n p' ts acc).
  Proof.
    intros Hp. induction n as [|n IH]; intros i ts acc HR; cbn [many0_loop]; [exact Logic.I|].
    specialize (Hp i ts HR). destruct (p i) as [r a|[]|], (p' ts) as [r' a'|[]|]; cbn in Hp; try contradiction; cbn; auto using Step_refl.
    destruct Hp as [<- Hs]. rewrite (Step_same _ _ _ _ Hs). destruct (toks_same r' ts); [exact Logic.I|].
    eapply SimR_trans; eauto. apply IH. eapply Step_Rd; eauto.
  Qed.
  Lemma Sim_sep_loop A S (p : parser text A) p' (s : parser text S) s' n : Sim p p' -> Sim s s' -> forall i ts acc, Rd i ts ->
    SimR i ts (sep_loop text_eqb n s p i acc) (sep_loop toks_same n s' p' ts acc).
  Proof.
    intros Hp Hs. induction n as [|n IH]; intros i ts acc HR; cbn [sep_loop]; [exact Logic.I|].
    specialize (Hs i ts HR). destruct (s i) as [r a|[]|], (s' ts) as [r' a'|[]|]; cbn in Hs; try contradiction; cbn; auto using Step_refl.
    destruct Hs as [<- Hst]. rewrite (Step_same _ _ _ _ Hst). destruct (toks_same r' ts); [exact Logic.I|].
    assert (HR' : Rd r r') by (eapply Step_Rd; eauto).
    pose proof (Hp r r' HR') as Hp'. destruct (p r) as [r2 b|[]|], (p' r') as [r2' b'|[]|]; cbn in Hp'; try contradiction; cbn; auto using Step_refl.
    destruct Hp' as [<- Hst']. pose proof (Step_trans _ _ _ _ _ _ Hst Hst') as Hst2.
    rewrite (Step_same _ _ _ _ Hst2). destruct (toks_same r2' ts); [exact Logic.I|].
    eapply SimR_trans; eauto. apply IH. eapply Step_Rd; eauto.
  Qed.

  Lemma Sim_Ats A (t : parser text A) (toks : A -> list tok) (p' : parser (list tok) A) :
    Fine t -> (forall a, toks a <> []) ->
    (forall i r a, t i = Ok r a <-> Ats (toks a) i r) ->
    (forall ts, (exists r a, p' ts = Ok r a /\ ts = toks a ++ r) \/ (exists q k, p' ts = Err (Error q k)) /\ forall r a, ts <> toks a ++ r) ->
    Sim t p'.
  Proof.
    intros Hf Hn Ht Hp i ts HR.
    destruct (Hp ts) as [(r & a & -> & ->)|((q & k & ->) & H)].
    - destruct (Rd_app _ _ _ HR (Hn a)) as (r' & Ha & Hl & Hb). pose proof Ha as Ha'. apply Ht in Ha'. rewrite Ha'. cbn.
      split; auto. right. pose proof Ha as Ha1. apply Ats_shorter in Ha as [_ Ha]. specialize (Ha (Hn a)). repeat split; eauto.
      rewrite app_length. specialize (Hn a). destruct (toks a); [congruence|]. cbn. lia.
    - destruct (Fine_cases _ t i Hf) as [(r & a & E)|(q' & k' & ->)]; [|exact Logic.I].
      exfalso. apply Ht in E. destruct (Rd_Ats _ _ _ _ HR E (Hn a)) as (ts' & -> & _). eapply H; eauto.
  Qed.

  Lemma Sim_terminal A (t : terminal A) : plain t -> Sim (text_sem A t) (tok_sem A t).
  Proof.
    destruct t as [t| | | |]; cbn [plain text_sem]; intros Hp.
    - assert (Ht : not_minus_dot t) by (destruct t; auto).
      apply (Sim_Ats _ _ (fun _ => [term_tok t])); auto with fine; try discriminate.
      + intros i r a. apply term_Ats; auto.
      + intros [|x r]; cbn; [right; split; [unfold tfail; eauto|discriminate]|].
        destruct (tok_eqb x (term_tok t)) eqn:E; [apply tok_eqb_eq in E; subst; left; eauto|].
        right. split; [unfold tfail; eauto|]. intros r' _ [= -> ->]. rewrite tok_eqb_refl in E. discriminate.
    - intros i ts HR. destruct (Fine_cases _ p_Identifier i) as [(r & a & E)|(q' & k' & E)]; auto with fine; rewrite E.
      + pose proof E as E'. apply p_Identifier_At in E' as [e E']. destruct (Rd_At _ _ _ _ HR E') as (ts' & -> & Hl & Hb). cbn.
        split; auto. right. pose proof (At_shorter _ _ _ E') as E1. repeat split; auto; try lia.
        exists [TName e a]. split; auto. exists r. split; auto. reflexivity.
      + destruct ts as [|[e n|s| |l|s|s] ts]; try exact Logic.I.
        destruct (Rd_cons _ _ _ HR) as (r & Ha & _). assert (p_Identifier i = Ok r n) by (apply p_Identifier_At; eauto). congruence.
    - apply (Sim_Ats _ _ (fun s => [TStr s])); auto with fine; try discriminate.
      + intros i r a. rewrite Ats_one. apply p_StringLit_At; auto.
      + intros [|[] r]; cbn; unfold tfail; try (right; split; [eauto|discriminate]). left; eauto.
    - apply (Sim_Ats _ _ default_toks); auto with fine.
      + intros a. destruct (default_toks_cons a) as (x & y & ->). discriminate.
      + intros. apply DefaultValue_ok.
      + intros ts. unfold tok_sem. destruct (default_of ts) as [[v r]|] eqn:E.
        * left. apply default_of_ok in E. eauto.
        * right. split; [unfold tfail; eauto|]. intros r a E'. apply default_of_ok in E'. congruence.
    - apply (Sim_Ats _ _ const_toks); auto with fine.
      + intros [b|f|l|]; try discriminate. destruct f; discriminate.
      + intros. apply ConstValue_ok.
      + intros ts. unfold tok_sem. destruct (const_of ts) as [[v r]|] eqn:E.
        * left. apply const_of_ok in E. eauto.
        * right. split; [unfold tfail; eauto|]. intros r a E'. apply const_of_ok in E'. congruence.
  Qed.

  Theorem run_Sim n : forall A (p : pexp A), Plain p -> Sim (trun n A p) (krun n A p).
  Proof.
    induction n as [n IHn] using lt_wf_ind.
    induction p as [A t|A a|A B p IHp f IHf|A p IHp q IHq|A|A p IHp|A p IHp|S A s IHs p IHp|S A s IHs p IHp|A x];
      cbn [Plain]; intros HP; runs.
    - apply Sim_terminal; auto.
    - apply Sim_ret.
    - apply Sim_bind; intuition.
    - apply Sim_or; intuition.
    - apply Sim_end.
    - apply Sim_opt; auto.
    - intros i ts HR. apply Sim_many0_loop; auto.
    - destruct HP as [HP1 HP2]. intros i ts HR. unfold separated_list. pose proof (IHp HP2 i ts HR) as H.
      destruct (trun n A p i) as [r a|[]|], (krun n A p ts) as [r' a'|[]|]; cbn in H; try contradiction; cbn; auto using Step_refl.
      destruct H as [<- Hs]. rewrite (Step_same _ _ _ _ Hs). destruct (toks_same r' ts); [exact Logic.I|].
      eapply SimR_trans; eauto. apply Sim_sep_loop; auto. eapply Step_Rd; eauto.
    - destruct HP as [HP1 HP2]. intros i ts HR. unfold separated_nonempty_list. pose proof (IHp HP2 i ts HR) as H.
      destruct (trun n A p i) as [r a|[]|], (krun n A p ts) as [r' a'|[]|]; cbn in H; try contradiction; cbn; auto using Step_refl.
      destruct H as [<- Hs]. rewrite (Step_same _ _ _ _ Hs). destruct (toks_same r' ts); [exact Logic.I|].
      eapply SimR_trans; eauto. apply Sim_sep_loop; auto. eapply Step_Rd; eauto.
    - destruct n as [|n]; [intros i ts _; exact Logic.I|]. rewrite !run_nt_S. apply IHn; auto using grammar_Plain.
  Qed.
End Sim.
