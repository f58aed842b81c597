(** * Number of steps and depth of recursion of a parser run

    [run] says what a parser returns.  Here the same evaluation is measured. *)
From Coq Require Import String Ascii NArith Arith Bool List Lia.
From Verif Require Import Nom Lex Ast Grammar Spec LexFacts NumFacts TokFacts RunFacts Shapes TermFacts Api ApiFacts LexProps
  Tok TokRun TokSound TokComplete TokMembers Shows Exact Print.
Import ListNotations.
Open Scope list_scope.

(** ** Measuring an evaluation *)
Section Meter.
  Context {I : Type} (same : I -> I -> bool) (tsem : forall A, terminal A -> parser I A).
  Variable op : nat -> nat -> nat.      (* combines the measures of evaluations that follow each other *)
  Variable leaf : nat.                  (* the measure of a call of the lexical layer *)

  (** Each follows the evaluation of the combinator of the same name in Nom.v; [c] and [cs] measure the calls of [p] and [sep]. *)
  Fixpoint m_many0_loop {A} (fuel : nat) (p : parser I A) (c : I -> nat) (i : I) : nat :=
    match fuel with
    | O => 0
    | S fuel' => op (c i)
        match p i with
        | Ok i1 _ => if same i1 i then 0 else m_many0_loop fuel' p c i1
        | _ => 0
        end
    end.
  Fixpoint m_sep_loop {A S} (fuel : nat) (sep : parser I S) (p : parser I A) (cs c : I -> nat) (i : I) : nat :=
    match fuel with
    | O => 0
    | Datatypes.S fuel' => op (cs i)
        match sep i with
        | Ok i1 _ =>
            if same i1 i then 0
            else op (c i1)
              match p i1 with
              | Ok i2 _ => if same i2 i then 0 else m_sep_loop fuel' sep p cs c i2
              | _ => 0
              end
        | _ => 0
        end
    end.
  Definition m_separated {A S} (fuel : nat) (sep : parser I S) (p : parser I A) (cs c : I -> nat) (i : I) : nat :=
    op (c i)
      match p i with
      | Ok i1 _ => if same i1 i then 0 else m_sep_loop fuel sep p cs c i1
      | _ => 0
      end.

  (** The measure of [run same tsem n A p i].  A recursive call adds one. *)
  Fixpoint meter (n : nat) : forall A, pexp A -> I -> nat :=
    fix go (A : Type) (p : pexp A) {struct p} : I -> nat :=
      match p with
      | PTerm t => fun _ => leaf
      | PRet a => fun _ => 0
      | PBind q f => fun i => op (go _ q i) match run same tsem n _ q i with Ok r a => go _ (f a) r | _ => 0 end
      | POr q r => fun i => op (go _ q i) match run same tsem n _ q i with Err (Error _ _) => go _ r i | _ => 0 end
      | PEnd => fun _ => 0
      | POpt q => go _ q
      | PMany0 q => m_many0_loop n (run same tsem n _ q) (go _ q)
      | PSepList s q | PSepNonEmpty s q => m_separated n (run same tsem n _ s) (run same tsem n _ q) (go _ s) (go _ q)
      | PNT x => match n with
                 | O => fun _ => 0
                 | S m => fun i => S (meter m _ (grammar x) i)
                 end
      end.

  Lemma meter_term n A (t : terminal A) i : meter n A (PTerm t) i = leaf. Proof. destruct n; reflexivity. Qed.
  Lemma meter_ret n A (a : A) i : meter n A (PRet a) i = 0. Proof. destruct n; reflexivity. Qed.
  Lemma meter_bind n A B (p : pexp A) (f : A -> pexp B) i : meter n B (PBind p f) i =
    op (meter n A p i) match run same tsem n A p i with Ok r a => meter n B (f a) r | _ => 0 end.
  Proof. destruct n; reflexivity. Qed.
  Lemma meter_or n A (p q : pexp A) i : meter n A (POr p q) i =
    op (meter n A p i) match run same tsem n A p i with Err (Error _ _) => meter n A q i | _ => 0 end.
  Proof. destruct n; reflexivity. Qed.
  Lemma meter_end n A i : meter n A PEnd i = 0. Proof. destruct n; reflexivity. Qed.
  Lemma meter_opt n A (p : pexp A) i : meter n _ (POpt p) i = meter n A p i. Proof. destruct n; reflexivity. Qed.
  Lemma meter_many0 n A (p : pexp A) i : meter n _ (PMany0 p) i = m_many0_loop n (run same tsem n A p) (meter n A p) i.
  Proof. destruct n; reflexivity. Qed.
  Lemma meter_seplist n S A (s : pexp S) (p : pexp A) i : meter n _ (PSepList s p) i =
    m_separated n (run same tsem n _ s) (run same tsem n _ p) (meter n _ s) (meter n _ p) i.
  Proof. destruct n; reflexivity. Qed.
  Lemma meter_sepnonempty n S A (s : pexp S) (p : pexp A) i : meter n _ (PSepNonEmpty s p) i =
    m_separated n (run same tsem n _ s) (run same tsem n _ p) (meter n _ s) (meter n _ p) i.
  Proof. destruct n; reflexivity. Qed.
  Lemma meter_nt_O A (x : nt A) i : meter 0 A (PNT x) i = 0. Proof. reflexivity. Qed.
  Lemma meter_nt_S n A (x : nt A) i : meter (S n) A (PNT x) i = S (meter n A (grammar x) i). Proof. reflexivity. Qed.
End Meter.
Ltac meters := repeat first [rewrite meter_term | rewrite meter_ret | rewrite meter_bind | rewrite meter_or | rewrite meter_end
  | rewrite meter_opt | rewrite meter_many0 | rewrite meter_seplist | rewrite meter_sepnonempty].

(** The number of calls of the lexical layer and of recursive parsers that [parse_as p i] makes. *)
Definition steps_as {A} (p : pexp A) (i : text) : nat := meter text_eqb text_sem Nat.add 1 (S (length i)) A p i.
(** How deep the calls of recursive parsers are nested in [parse_as p i]. *)
Definition depth_as {A} (p : pexp A) (i : text) : nat := meter text_eqb text_sem Nat.max 0 (S (length i)) A p i.
(** For [weedle::parse]. *)
Definition parse_steps (raw : text) : nat := steps_as e_Definitions raw.
Definition parse_depth (raw : text) : nat := depth_as e_Definitions raw.

(** ** Text and tokens are measured alike *)
Section SimMeter.
  Variable op : nat -> nat -> nat.
  Variable leaf : nat.
  Variable r0 : text.
  Hypothesis Hr0 : Stuck r0.
  Notation Rd := (Rd r0).
  Notation tm := (meter text_eqb text_sem op leaf).
  Notation km := (meter toks_same tok_sem op leaf).
  Notation Sim := (Sim r0).

  Lemma m_many0_Sim A (p : parser text A) p' (c : text -> nat) c' n : Sim p p' -> (forall i ts, Rd i ts -> c i = c' ts) ->
    forall i ts, Rd i ts -> m_many0_loop text_eqb op n p c i = m_many0_loop toks_same op n p' c' ts.
  Proof.
    intros Hp Hc. induction n as [|n IH]; intros i ts HR; cbn; auto. rewrite (Hc _ _ HR). f_equal.
    specialize (Hp i ts HR). destruct (p i) as [r a|[]|], (p' ts) as [r' a'|[]|]; cbn in Hp; try contradiction; auto.
    destruct Hp as [<- Hs]. rewrite (Step_same _ _ _ _ _ Hs). destruct (toks_same r' ts); auto.
    apply IH. eapply Step_Rd; eauto.
  Qed.
  Lemma m_sep_Sim A S (p : parser text A) p' (s : parser text S) s' (c cs : text -> nat) c' cs' n :
    Sim p p' -> Sim s s' -> (forall i ts, Rd i ts -> c i = c' ts) -> (forall i ts, Rd i ts -> cs i = cs' ts) ->
    forall i ts, Rd i ts -> m_sep_loop text_eqb op n s p cs c i = m_sep_loop toks_same op n s' p' cs' c' ts.
  Proof.
    intros Hp Hs Hc Hcs. induction n as [|n IH]; intros i ts HR; cbn; auto. rewrite (Hcs _ _ HR). f_equal.
    specialize (Hs i ts HR). destruct (s i) as [r a|[]|], (s' ts) as [r' a'|[]|]; cbn in Hs; try contradiction; auto.
    destruct Hs as [<- Hst]. rewrite (Step_same _ _ _ _ _ Hst). destruct (toks_same r' ts); auto.
    assert (HR' : Rd r r') by (eapply Step_Rd; eauto). rewrite (Hc _ _ HR'). f_equal.
    pose proof (Hp r r' HR') as Hp'. destruct (p r) as [r2 b|[]|], (p' r') as [r2' b'|[]|]; cbn in Hp'; try contradiction; auto.
    destruct Hp' as [<- Hst']. pose proof (Step_trans _ _ _ _ _ _ _ Hst Hst') as Hst2.
    rewrite (Step_same _ _ _ _ _ Hst2). destruct (toks_same r2' ts); auto. apply IH. eapply Step_Rd; eauto.
  Qed.
  Lemma m_separated_Sim A S (p : parser text A) p' (s : parser text S) s' (c cs : text -> nat) c' cs' n :
    Sim p p' -> Sim s s' -> (forall i ts, Rd i ts -> c i = c' ts) -> (forall i ts, Rd i ts -> cs i = cs' ts) ->
    forall i ts, Rd i ts -> m_separated text_eqb op n s p cs c i = m_separated toks_same op n s' p' cs' c' ts.
  Proof.
    intros Hp Hs Hc Hcs i ts HR. unfold m_separated. rewrite (Hc _ _ HR). f_equal.
    pose proof (Hp i ts HR) as Hp'. destruct (p i) as [r a|[]|], (p' ts) as [r' a'|[]|]; cbn in Hp'; try contradiction; auto.
    destruct Hp' as [<- Hst]. rewrite (Step_same _ _ _ _ _ Hst). destruct (toks_same r' ts); auto.
    apply m_sep_Sim; auto. eapply Step_Rd; eauto.
  Qed.

  Theorem meter_Sim n : forall A (p : pexp A), Plain p -> forall i ts, Rd i ts -> tm n A p i = km n A p ts.
  Proof.
    induction n as [n IHn] using lt_wf_ind.
    induction p as [A t|A a|A B p IHp f IHf|A p IHp q IHq|A|A p IHp|A p IHp|S A s IHs p IHp|S A s IHs p IHp|A x];
      cbn [Plain]; intros HP i ts HR; meters; auto.
    - destruct HP as [HP1 HP2]. rewrite (IHp HP1 _ _ HR). f_equal. pose proof (run_Sim r0 Hr0 n A p HP1 i ts HR) as H.
      destruct (trun n A p i) as [r a|[]|], (krun n A p ts) as [r' a'|[]|]; cbn in H; try contradiction; auto.
      destruct H as [<- Hs]. apply IHf; auto. eapply Step_Rd; eauto.
    - destruct HP as [HP1 HP2]. rewrite (IHp HP1 _ _ HR). f_equal. pose proof (run_Sim r0 Hr0 n A p HP1 i ts HR) as H.
      destruct (trun n A p i) as [r a|[]|], (krun n A p ts) as [r' a'|[]|]; cbn in H; try contradiction; auto.
    - apply m_many0_Sim; auto. apply run_Sim; auto.
    - destruct HP as [HP1 HP2]. apply m_separated_Sim; auto; apply run_Sim; auto.
    - destruct HP as [HP1 HP2]. apply m_separated_Sim; auto; apply run_Sim; auto.
    - destruct n as [|n]; [reflexivity|]. rewrite !meter_nt_S. f_equal. apply IHn; auto using grammar_Plain.
  Qed.
End SimMeter.

(** ** Depth *)
Section Depth.
  Notation tm := (meter text_eqb text_sem Nat.max 0).
  Lemma m_many0_bound A (p : parser text A) (c : text -> nat) b n : (forall i, c i <= length i + b) ->
    (forall i r a, p i = Ok r a -> length r <= length i) -> forall i, m_many0_loop text_eqb Nat.max n p c i <= length i + b.
  Proof.
    intros Hc Hp. induction n as [|n IH]; intros i; cbn; [lia|]. specialize (Hc i).
    destruct (p i) as [r a|e|] eqn:E; try lia. specialize (Hp _ _ _ E). specialize (IH r). destruct (text_eqb r i); lia.
  Qed.
  Lemma m_sep_bound A S (p : parser text A) (s : parser text S) (c cs : text -> nat) b n : (forall i, c i <= length i + b) ->
    (forall i, cs i <= length i + b) -> (forall i r a, p i = Ok r a -> length r <= length i) ->
    (forall i r a, s i = Ok r a -> length r <= length i) -> forall i, m_sep_loop text_eqb Nat.max n s p cs c i <= length i + b.
  Proof.
    intros Hc Hcs Hp Hs. induction n as [|n IH]; intros i; cbn; [lia|]. specialize (Hcs i).
    destruct (s i) as [r a|e|] eqn:E; try lia. specialize (Hs _ _ _ E). destruct (text_eqb r i); [lia|]. specialize (Hc r).
    destruct (p r) as [r2 a2|e|] eqn:E2; try lia. specialize (Hp _ _ _ E2). destruct (text_eqb r2 i); [lia|]. specialize (IH r2). lia.
  Qed.
  Lemma m_separated_bound A S (p : parser text A) (s : parser text S) (c cs : text -> nat) b n : (forall i, c i <= length i + b) ->
    (forall i, cs i <= length i + b) -> (forall i r a, p i = Ok r a -> length r <= length i) ->
    (forall i r a, s i = Ok r a -> length r <= length i) -> forall i, m_separated text_eqb Nat.max n s p cs c i <= length i + b.
  Proof.
    intros Hc Hcs Hp Hs i. unfold m_separated. pose proof (Hc i) as Hci. destruct (p i) as [r a|e|] eqn:E; try lia.
    pose proof (Hp _ _ _ E) as Hr. destruct (text_eqb r i); [lia|].
    pose proof (m_sep_bound _ _ p s c cs b n Hc Hcs Hp Hs r). lia.
  Qed.
  Theorem depth_bound n : forall A (p : pexp A) al c, Shape al p c -> forall i, tm n A p i <= length i + (if al then 1 else 0).
  Proof.
    induction n as [n IHn] using lt_wf_ind.
    induction p as [A t|A a|A B p IHp f IHf|A p IHp q IHq|A|A p IHp|A p IHp|S A s IHs p IHp|S A s IHs p IHp|A x];
      cbn [Shape]; intros al c HS i; meters; try lia.
    - destruct HS as (c1 & c2 & H1 & H2 & _). pose proof (IHp _ _ H1 i) as Hp.
      destruct (trun n A p i) as [r a|e|] eqn:E; try lia. pose proof (trun_Le _ _ _ _ _ H1 _ _ _ E).
      pose proof (IHf a _ _ (H2 a) r). destruct al, c1; cbn in *; lia.
    - destruct HS as [H1 H2]. pose proof (IHp _ _ H1 i). pose proof (IHq _ _ H2 i).
      destruct (trun n A p i) as [r a|[]|]; lia.
    - destruct HS as ((c' & H1) & _). eapply IHp; eauto.
    - destruct HS as (H1 & _). apply m_many0_bound; [intros; eapply IHp; eauto|].
      intros j r a E. apply (trun_Le _ _ _ _ _ H1) in E. lia.
    - destruct HS as (H1 & H2 & _). apply m_separated_bound; [intros; eapply IHp; eauto|intros; eapply IHs; eauto| |];
        intros j r a E; [apply (trun_Le _ _ _ _ _ H2) in E|apply (trun_Le _ _ _ _ _ H1) in E]; lia.
    - destruct HS as (H1 & H2). apply m_separated_bound; [intros; eapply IHp; eauto|intros; eapply IHs; eauto| |];
        intros j r a E; [apply (trun_Le _ _ _ _ _ H2) in E|apply (trun_Le _ _ _ _ _ H1) in E]; lia.
    - subst al. destruct n as [|n]; [rewrite meter_nt_O; lia|]. rewrite meter_nt_S.
      pose proof (IHn n (Nat.lt_succ_diag_r n) _ (grammar x) _ _ (grammar_Shape _ x) i). cbn in *. lia.
  Qed.
End Depth.
(** At most as many nested recursive calls as there are characters. *)
Theorem depth_as_bound b A (p : pexp A) i : Impl b A p -> depth_as p i <= length i.
Proof.
  intros H. pose proof (depth_bound (S (length i)) A p false b (Impl_Shape _ _ _ H) i) as K. cbn in K. unfold depth_as. cbn. lia.
Qed.

(** ** Lower bounds, on tokens *)
Section Lower.
  Variable op : nat -> nat -> nat.
  Variable leaf : nat.
  Hypothesis Hop : forall x y, x <= op x y /\ y <= op x y.
  Notation km := (meter toks_same tok_sem op leaf).

  Lemma low_bind1 K n A B (p : pexp A) (f : A -> pexp B) i : K <= km n A p i -> K <= km n B (PBind p f) i.
  Proof. intros H. rewrite meter_bind. eapply Nat.le_trans; [exact H|apply Hop]. Qed.
  Lemma low_bind2 K n A B (p : pexp A) (f : A -> pexp B) i r a : krun n A p i = Ok r a -> K <= km n B (f a) r -> K <= km n B (PBind p f) i.
  Proof. intros E H. rewrite meter_bind, E. eapply Nat.le_trans; [exact H|apply Hop]. Qed.
  Lemma low_or1 K n A (p q : pexp A) i : K <= km n A p i -> K <= km n A (POr p q) i.
  Proof. intros H. rewrite meter_or. eapply Nat.le_trans; [exact H|apply Hop]. Qed.
  Lemma low_or2 K n A (p q : pexp A) i : (exists j k, krun n A p i = Err (Error j k)) -> K <= km n A q i -> K <= km n A (POr p q) i.
  Proof. intros (j & k & E) H. rewrite meter_or, E. eapply Nat.le_trans; [exact H|apply Hop]. Qed.
  Lemma low_opt K n A (p : pexp A) i : K <= km n A p i -> K <= km n _ (POpt p) i.
  Proof. rewrite meter_opt. auto. Qed.
  Lemma low_sep K n A S (s : pexp S) (p : pexp A) i : K <= km n A p i -> K <= km n _ (PSepList s p) i.
  Proof. intros H. rewrite meter_seplist. unfold m_separated. eapply Nat.le_trans; [exact H|apply Hop]. Qed.
  Lemma low_many K n A (p : pexp A) i : K <= km (S n) A p i -> K <= km (S n) _ (PMany0 p) i.
  Proof. intros H. rewrite meter_many0. cbn [m_many0_loop]. eapply Nat.le_trans; [exact H|apply Hop]. Qed.
End Lower.
(** Rejection visible from the first tokens. *)
Ltac lrej := do 2 eexists; reflexivity.

(** *** Nested sequences *)
Notation nm s := (TName false (str s)).
Fixpoint nest (k : nat) (r : list tok) : list tok :=
  match k with
  | O => nm "any" :: r
  | S k' => nm "sequence" :: TPunct "<" :: nest k' (TPunct ">" :: r)
  end.
Fixpoint nested (k : nat) : Type_ :=
  match k with
  | O => Type_Single SingleType_Any
  | S k' => Type_Single (SingleType_NonAny (NonAnyType_Sequence (mkMayBeNull (mkSequenceType (nested k')) None)))
  end.
Lemma nest_Conc k : forall bad r, Conc (show_Type bad (nested k)) (nest k r) r.
Proof.
  induction k as [|k IH]; intros bad r.
  - cbn. repeat constructor.
  - cbn [nest nested]. change (show_Type bad (Type_Single (SingleType_NonAny (NonAnyType_Sequence (mkMayBeNull (mkSequenceType (nested k)) None)))))
      with ((GKw "sequence" :: GP "<" :: show_Type [] (nested k) ++ [GP ">"]) ++ []).
    rewrite app_nil_r. apply Conc_kw. apply Conc_p. eapply Conc_app; [apply IH|]. repeat constructor.
Qed.
Lemma nested_wf k : wf_Type (nested k).
Proof. induction k; cbn; auto. Qed.
Lemma nest_depth k : forall n r, length (nest k r) < n -> k <= meter toks_same tok_sem Nat.max 0 n _ e_Type (nest k r).
Proof.
  assert (Hop : forall x y, x <= max x y /\ y <= max x y) by lia.
  induction k as [|k IH]; intros n r Hn; [lia|]. cbn [nest length] in *. destruct n as [|n]; [lia|].
  apply low_or1; auto. apply low_bind1; auto. apply low_or2; auto; [lrej|]. apply low_or1; auto. apply low_bind1; auto.
  do 3 (apply low_or2; auto; [lrej|]).
  repeat first [apply low_or1; auto; apply low_bind1; auto; apply low_bind1; auto; eapply low_bind2; auto; [reflexivity|];
    apply low_bind1; auto; eapply low_bind2; auto; [reflexivity|]; apply low_bind1; auto; rewrite meter_nt_S; apply le_n_S; apply IH; lia
    | apply low_or2; auto; [lrej|] ].
Qed.

(** *** Nested argument lists in attributes: [A([A([A] any ... y)] any ... y)] *)
Fixpoint bush (k : nat) (r : list tok) : list tok :=
  match k with
  | O => nm "A" :: r
  | S k' => nm "A" :: TPunct "(" :: TPunct "[" :: bush k' (TPunct "]" :: nm "any" :: TPunct "..." :: nm "y" :: TPunct ")" :: r)
  end.
Fixpoint bushy (k : nat) : ExtendedAttribute :=
  match k with
  | O => ExtendedAttribute_NoArgs (str "A")
  | S k' => ExtendedAttribute_ArgList (mkExtendedAttributeArgList (str "A")
      [Argument_Variadic (mkVariadicArgument (Some [bushy k']) (Type_Single SingleType_Any) (str "y"))])
  end.
Lemma bush_Conc k : forall r, Conc (show_ExtendedAttribute (bushy k)) (bush k r) r.
Proof.
  induction k as [|k IH]; intros r; cbn [bush bushy show_ExtendedAttribute map join].
  - apply Conc_id_raw; [cbn; tauto|constructor].
  - apply Conc_id_raw; [cbn; tauto|]. apply Conc_p. cbn [show_Argument map join app]. rewrite <- !app_assoc. apply Conc_p.
    eapply Conc_app; [apply IH|]. cbn [app]. repeat (apply Conc_p || apply Conc_kw). cbn. repeat constructor. intros [].
Qed.
Lemma bushy_wf k : wf_ExtendedAttribute (bushy k).
Proof. induction k; cbn; auto. Qed.
Lemma bush_attributes k r : Ev e_attributes (TPunct "[" :: bush k (TPunct "]" :: r)) (Some (Some [bushy k], r)).
Proof.
  apply Cf_attributes; [|cbn; split; auto using bushy_wf|discriminate].
  cbn [show_attributes map join app]. apply Conc_p. eapply Conc_app; [apply bush_Conc|]. repeat constructor.
Qed.
(** An argument is first parsed as a single one, which fails at the dots, and then as a variadic one: the attributes are parsed twice. *)
Lemma bush_single k r : Ev e_SingleArgument (TPunct "[" :: bush k (TPunct "]" :: nm "any" :: TPunct "..." :: r)) None.
Proof. eapply Ev_bind; [apply bush_attributes|]. erej. Qed.
Lemma bush_steps k : forall n r, length (bush k r) < n -> 2 ^ k <= meter toks_same tok_sem Nat.add 1 n _ (PNT NT_ExtendedAttribute) (bush k r).
Proof.
  assert (Hop : forall x y, x <= x + y /\ y <= x + y) by lia.
  induction k as [|k IH]; intros n r Hn; (destruct n as [|n]; [lia|]); rewrite meter_nt_S; [cbn; lia|].
  cbn [bush length] in *. apply le_S. destruct n as [|n]; [lia|].
  apply low_or1; auto. apply low_bind1; auto. eapply low_bind2; auto; [reflexivity|]. apply low_bind1; auto.
  eapply low_bind2; auto; [reflexivity|]. apply low_bind1; auto. apply low_bind1; auto. apply low_sep; auto.
  unfold e_Argument. set (r1 := nm "any" :: TPunct "..." :: nm "y" :: TPunct ")" :: r) in *.
  assert (HE : exists j e, krun (S n) _ (PMap Argument_Single e_SingleArgument) (TPunct "[" :: bush k (TPunct "]" :: r1)) = Err (Error j e)).
  { apply (Ev_krun _ _ _ None).
    - apply Ev_map_no. unfold r1. apply bush_single.
    - eapply (krun_Total _ _ _ false true); [|cbn [length]; lia]. apply Shape_map. auto with shape. }
  destruct HE as (j & e & HE). cbn [PAlt]. rewrite meter_or, HE.
  assert (HA : 2 ^ k <= meter toks_same tok_sem Nat.add 1 (S n) _ e_attributes (TPunct "[" :: bush k (TPunct "]" :: r1))).
  { apply low_opt. eapply low_bind2; auto; [reflexivity|]. apply low_bind1; auto. apply low_bind1; auto.
    apply low_sep; auto. apply IH. lia. }
  replace (2 ^ S k) with (2 ^ k + 2 ^ k) by (cbn [Nat.pow]; lia). apply Nat.add_le_mono.
  - apply low_bind1; auto. apply low_bind1; auto.
  - apply low_or1; auto. apply low_bind1; auto. apply low_bind1; auto.
Qed.

(** ** From tokens to text *)
Fixpoint weight (ts : list tok) : nat := match ts with [] => 0 | t :: ts' => S (length (spell t)) + weight ts' end.
Lemma layout_short ts : length (layout ts) <= weight ts.
Proof.
  induction ts as [|t ts IH]; cbn [weight]; [auto|]. destruct ts as [|t2 ts]; [cbn [layout]; lia|].
  change (layout (t :: t2 :: ts)) with (spell t ++ 32%N :: layout (t2 :: ts)). rewrite app_length. cbn [length] in *. lia.
Qed.
Lemma layout_long ts : Forall valid_tok ts -> length ts <= length (layout ts).
Proof.
  induction 1 as [|t ts Ht Hts IH]; [auto|]. assert (length (spell t) <> 0).
  { intros E. apply (spell_nonempty t Ht). apply length_zero_iff_nil. auto. }
  destruct ts as [|t2 ts]; [cbn [layout length]; lia|].
  change (layout (t :: t2 :: ts)) with (spell t ++ 32%N :: layout (t2 :: ts)). rewrite app_length. cbn [length] in *. lia.
Qed.
Lemma layout_meter op leaf ts n : Forall valid_tok ts ->
  meter text_eqb text_sem op leaf n _ e_Definitions (layout ts) = meter toks_same tok_sem op leaf n _ e_Definitions ts.
Proof. intros H. apply (meter_Sim op leaf [] Stuck_nil); [exact P_Defs|]. apply Rd_Lay, layout_Lay; auto. Qed.
Lemma layout_parse ts defs : ts <> [] -> Forall valid_tok ts -> Sentence defs ts -> wf_Definitions defs -> parse (layout ts) = Parsed defs.
Proof.
  intros Hn Hv HS HW. eapply parse_complete; eauto. exists [], (layout ts). repeat split; auto; [constructor|]. apply layout_Lay; auto.
Qed.
Ltac validtok := cbn [valid_tok]; first [apply NameLex_dec; reflexivity | cbn; tauto].

Lemma nest_valid k : forall r, Forall valid_tok r -> Forall valid_tok (nest k r).
Proof. induction k as [|k IH]; intros r H; cbn [nest]; repeat (constructor; [validtok|]); auto. apply IH. constructor; [validtok|auto]. Qed.
Lemma nest_weight k : forall r, weight (nest k r) = 13 * k + 4 + weight r.
Proof. induction k as [|k IH]; intros r; cbn [nest weight]; [cbn; lia|]. rewrite IH. cbn. lia. Qed.
(** [typedef sequence<...> A;] *)
Theorem depth_unbounded k : exists raw, length raw <= 13 * k + 16 /\ (exists d, parse raw = Parsed d) /\ k <= parse_depth raw.
Proof.
  set (ts := nm "typedef" :: nest k [nm "A"; TPunct ";"]).
  assert (Hv : Forall valid_tok ts).
  { constructor; [validtok|]. apply nest_valid. repeat (constructor; [validtok|]). constructor. }
  exists (layout ts). split; [|split].
  - eapply Nat.le_trans; [apply layout_short|]. unfold ts. cbn [weight]. rewrite nest_weight. cbn. lia.
  - exists [Definition_Typedef (mkTypedefDefinition None (mkAttributedType None (nested k)) (str "A"))]. apply layout_parse; auto.
    + discriminate.
    + unfold Sentence, show_Definitions. cbn [flat_map]. rewrite app_nil_r. cbn [show_Definition show_attributes app].
      apply Conc_kw. rewrite show_AttributedType_eq. cbn [show_attributes app]. eapply Conc_app; [apply nest_Conc|].
      assert (type_ends_long (nested k) = false) as E by (destruct k; reflexivity).
      cbn [attributed_ends_long]. rewrite E. cbn [name_after]. apply Conc_id_raw; [cbn; tauto|]. repeat constructor.
    + cbn. auto using nested_wf.
  - unfold parse_depth, depth_as. rewrite layout_meter by auto. pose proof (layout_long ts Hv) as Hl.
    assert (Hop : forall x y, x <= max x y /\ y <= max x y) by lia.
    apply low_many; auto. set (n := length (layout ts)) in *. clearbody n.
    unfold ts in *. cbn [length] in Hl. destruct n as [|n]; [lia|]. destruct k as [|k]; [lia|].
    unfold e_Definition. cbn [PAlt].
    repeat first [apply low_or1; auto; apply low_bind1; auto; eapply low_bind2; auto; [reflexivity|]; eapply low_bind2; auto; [reflexivity|];
      apply low_bind1; auto; eapply low_bind2; auto; [reflexivity|]; apply low_bind1; auto; apply (nest_depth (S k)); lia
    | apply low_or2; auto; [lrej|] ].
Qed.

Lemma bush_valid k : forall r, Forall valid_tok r -> Forall valid_tok (bush k r).
Proof.
  induction k as [|k IH]; intros r H; cbn [bush]; repeat (constructor; [validtok|]); auto. apply IH.
  repeat (constructor; [validtok|]); auto.
Qed.
Lemma bush_weight k : forall r, weight (bush k r) = 20 * k + 2 + weight r.
Proof. induction k as [|k IH]; intros r; cbn [bush weight]; [cbn; lia|]. rewrite IH. cbn. lia. Qed.
(** [[A([A([A] any ... y)] any ... y)] typedef any A;] *)
Theorem steps_exponential k : exists raw, length raw <= 20 * k + 22 /\ (exists d, parse raw = Parsed d) /\ 2 ^ k <= parse_steps raw.
Proof.
  set (ts := TPunct "[" :: bush k (TPunct "]" :: nm "typedef" :: nm "any" :: nm "A" :: [TPunct ";"])).
  assert (Hv : Forall valid_tok ts).
  { constructor; [validtok|]. apply bush_valid. repeat (constructor; [validtok|]). constructor. }
  exists (layout ts). split; [|split].
  - eapply Nat.le_trans; [apply layout_short|]. unfold ts. cbn [weight]. rewrite bush_weight. cbn. lia.
  - exists [Definition_Typedef (mkTypedefDefinition (Some [bushy k]) (mkAttributedType None (Type_Single SingleType_Any)) (str "A"))].
    apply layout_parse; auto.
    + discriminate.
    + unfold Sentence, show_Definitions. cbn [flat_map]. rewrite app_nil_r. cbn [show_Definition].
      cbn [show_attributes map join app]. unfold ts. apply Conc_p. rewrite <- app_assoc. eapply Conc_app; [apply bush_Conc|]. cbn [app].
      apply Conc_p. apply Conc_kw. cbn. repeat constructor. intros [].
    + cbn. auto using bushy_wf.
  - unfold parse_steps, steps_as. rewrite layout_meter by auto. pose proof (layout_long ts Hv) as Hl.
    assert (Hop : forall x y, x <= x + y /\ y <= x + y) by lia.
    apply low_many; auto. set (n := length (layout ts)) in *. clearbody n. unfold ts in *. cbn [length] in Hl.
    unfold e_Definition. cbn [PAlt]. apply low_or1; auto. apply low_bind1; auto. apply low_bind1; auto.
    apply low_opt. eapply low_bind2; auto; [reflexivity|]. apply low_bind1; auto. apply low_bind1; auto.
    apply low_sep; auto. apply bush_steps. lia.
Qed.
(** Exponentials exceed polynomials. *)
Lemma pow2_bound c d : exists k, c * (20 * k + 22) ^ d + c < 2 ^ k.
Proof.
  (* k = 2^j: (20k+22)^d <= (2^(j+6))^d, so it is enough that c + d (j + 6) + 1 <= 2^j *)
  assert (H0 : forall x, x < 2 ^ x) by (intros; apply Nat.pow_gt_lin_r; lia).
  assert (H1 : exists j, c + d * (j + 6) + 1 <= 2 ^ j).
  { (* j = 2m with m^2 large *)
    exists (2 * (c + 8 * d + 4)). set (m := c + 8 * d + 4). rewrite (Nat.mul_comm 2 m), Nat.pow_mul_r.
    assert (m < 2 ^ m) by auto. assert (Hm : (m + 1) * (m + 1) <= (2 ^ m) ^ 2) by (cbn [Nat.pow]; rewrite Nat.mul_1_r; apply Nat.mul_le_mono; lia).
    eapply Nat.le_trans; [|exact Hm]. assert (d <= m) by lia.
    assert (d * (m * 2 + 6) <= m * d * 2 + 6 * m) by nia. assert (m * (c + 8 * d + 4) = m * m) by reflexivity. nia. }
  destruct H1 as [j Hj]. exists (2 ^ j).
  assert (HB : 20 * 2 ^ j + 22 <= 2 ^ (j + 6)).
  { rewrite Nat.pow_add_r. change (2 ^ 6) with 64. assert (1 <= 2 ^ j) by (apply Nat.neq_0_lt_0, Nat.pow_nonzero; lia). lia. }
  assert (HP : (20 * 2 ^ j + 22) ^ d <= 2 ^ (d * (j + 6))).
  { rewrite (Nat.mul_comm d), Nat.pow_mul_r. apply Nat.pow_le_mono_l. auto. }
  assert (Hc := H0 c). assert (H3 : 1 <= 2 ^ (d * (j + 6))) by (apply Nat.neq_0_lt_0, Nat.pow_nonzero; lia).
  eapply Nat.lt_le_trans with (2 ^ (c + d * (j + 6) + 1)); [|apply Nat.pow_le_mono_r; lia].
  rewrite !Nat.pow_add_r. change (2 ^ 1) with 2. nia.
Qed.
Theorem steps_not_polynomial c d : exists raw, (exists defs, parse raw = Parsed defs) /\ c * length raw ^ d + c < parse_steps raw.
Proof.
  destruct (pow2_bound c d) as [k Hk]. destruct (steps_exponential k) as (raw & H1 & H2 & H3). exists raw. split; auto.
  eapply Nat.le_lt_trans; [|eapply Nat.lt_le_trans; [exact Hk|exact H3]]. apply Nat.add_le_mono_r, Nat.mul_le_mono_l, Nat.pow_le_mono_l. auto.
Qed.
