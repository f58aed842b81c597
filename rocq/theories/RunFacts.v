(** * Facts about [run] that hold for every parser expression and every kind of input. *)
From Coq Require Import String Ascii NArith Arith Bool List Lia.
From Verif Require Import Nom Lex Ast Grammar.
Import ListNotations.

(** ** Shape of expressions

    [Shape al p c]: recursive calls occur only where [al] is true or after something has been consumed, and if [c] is
    true then [p] consumes. *)
Fixpoint Shape (al : bool) {A} (p : pexp A) (c : bool) {struct p} : Prop :=
  match p with
  | PTerm t => True
  | PRet _ => c = false
  | PBind q f => exists c1 c2, Shape al q c1 /\ (forall a, Shape (al || c1) (f a) c2) /\ implb c (c1 || c2) = true
  | POr q r => Shape al q c /\ Shape al r c
  | PEnd => True
  | POpt q => (exists c', Shape al q c') /\ c = false
  | PMany0 q => Shape al q false /\ c = false
  | PSepList s q => Shape al s false /\ Shape al q false /\ c = false
  | PSepNonEmpty s q => Shape al s false /\ Shape al q false
  | PNT _ => al = true
  end.

(** [Plain p]: [p] does not use the terms [-] and [.], which are declared but occur in no rule of the grammar. *)
Definition plain {A} (t : terminal A) : Prop :=
  match t with
  | TmTerm Minus | TmTerm Dot => False
  | _ => True
  end.

Fixpoint Plain {A} (p : pexp A) : Prop :=
  match p with
  | PTerm t => plain t
  | PRet _ | PEnd | PNT _ => True
  | PBind q f => Plain q /\ forall a, Plain (f a)
  | POr q r => Plain q /\ Plain r
  | POpt q | PMany0 q => Plain q
  | PSepList s q | PSepNonEmpty s q => Plain s /\ Plain q
  end.

Lemma Shape_weaken : forall A (p : pexp A) al c, Shape al p c ->
  forall al' c', (al = true -> al' = true) -> (c' = true -> c = true) -> Shape al' p c'.
Proof.
  induction p as [A t|A a|A B p IHp f IHf|A p IHp q IHq|A|A p IHp|A p IHp|S A s IHs p IHp|S A s IHs p IHp|A x];
    cbn; intros al c HS al' c' Hal Hc; auto.
  - subst. destruct c'; auto. discriminate (Hc eq_refl).
  - destruct HS as (c1 & c2 & H1 & H2 & H3). exists c1, c2. repeat split.
    + eapply IHp; eauto.
    + intros a. eapply IHf; eauto. intros E. apply orb_true_iff in E. apply orb_true_iff. tauto.
    + destruct c'; cbn; auto. rewrite Hc in H3; auto.
  - destruct HS; split; eauto.
  - destruct HS as ((c1 & H1) & ->). split. exists c1; eauto. destruct c'; auto; discriminate (Hc eq_refl).
  - destruct HS as (H1 & ->). split; eauto. destruct c'; auto; discriminate (Hc eq_refl).
  - destruct HS as (H1 & H2 & ->). repeat split; eauto. destruct c'; auto; discriminate (Hc eq_refl).
  - destruct HS as (H1 & H2). repeat split; eauto.
Qed.

(** ** One-step equations of [run] *)
Section Eqs.
  Context {I : Type} (same : I -> I -> bool) (tsem : forall A, terminal A -> parser I A).
  Notation run := (run same tsem).
  Lemma run_term n A (t : terminal A) : run n A (PTerm t) = tsem A t.
  Proof. destruct n; reflexivity. Qed.
  Lemma run_ret n A (a : A) : run n A (PRet a) = ret a.
  Proof. destruct n; reflexivity. Qed.
  Lemma run_bind n A B (p : pexp A) (f : A -> pexp B) :
    run n B (PBind p f) = bind (run n A p) (fun a => run n B (f a)).
  Proof. destruct n; reflexivity. Qed.
  Lemma run_or n A (p q : pexp A) : run n A (POr p q) = alt_or (run n A p) (run n A q).
  Proof. destruct n; reflexivity. Qed.
  Lemma run_end n A : run n A PEnd = alt_end.
  Proof. destruct n; reflexivity. Qed.
  Lemma run_opt n A (p : pexp A) : run n (option A) (POpt p) = opt (run n A p).
  Proof. destruct n; reflexivity. Qed.
  Lemma run_many0 n A (p : pexp A) : run n (list A) (PMany0 p) = many0 same n (run n A p).
  Proof. destruct n; reflexivity. Qed.
  Lemma run_seplist n S A (s : pexp S) (p : pexp A) :
    run n (list A) (PSepList s p) = separated_list same n (run n S s) (run n A p).
  Proof. destruct n; reflexivity. Qed.
  Lemma run_sepnonempty n S A (s : pexp S) (p : pexp A) :
    run n (list A) (PSepNonEmpty s p) = separated_nonempty_list same n (run n S s) (run n A p).
  Proof. destruct n; reflexivity. Qed.
  Lemma run_nt_O A (x : nt A) : run 0 A (PNT x) = fun _ => Diverge.
  Proof. reflexivity. Qed.
  Lemma run_nt_S n A (x : nt A) : run (Datatypes.S n) A (PNT x) = run n A (grammar x).
  Proof. reflexivity. Qed.
End Eqs.

Ltac runs := repeat first [rewrite run_term | rewrite run_ret | rewrite run_bind | rewrite run_or | rewrite run_end
  | rewrite run_opt | rewrite run_many0 | rewrite run_seplist | rewrite run_sepnonempty].
Ltac runs_in H := repeat first [rewrite run_term in H | rewrite run_ret in H | rewrite run_bind in H
  | rewrite run_or in H | rewrite run_end in H
  | rewrite run_opt in H | rewrite run_many0 in H | rewrite run_seplist in H | rewrite run_sepnonempty in H].

(** ** Invariants that every step preserves *)
Section Inv.
  Context {I : Type} (same : I -> I -> bool) (tsem : forall A, terminal A -> parser I A).
  Variable Suf : I -> I -> Prop.
  Hypothesis Suf_refl : forall i, Suf i i.
  Hypothesis Suf_trans : forall i j k, Suf j i -> Suf k j -> Suf k i.

  (** [Good p]: results of [p] are related to its input, and its errors are plain errors at a related place. *)
  Definition Good {A} (p : parser I A) : Prop := forall i,
    match p i with
    | Ok r _ => Suf r i
    | Err (Error pos _) => Suf pos i
    | Err _ => False
    | Diverge => True
    end.

  Lemma Good_ret A (a : A) : Good (ret a).
  Proof. intros i; cbn; auto. Qed.
  Lemma Good_bind A B (p : parser I A) (f : A -> parser I B) :
    Good p -> (forall a, Good (f a)) -> Good (bind p f).
  Proof.
    intros Hp Hf i. unfold bind. specialize (Hp i). destruct (p i) as [r a|[]|]; auto.
    specialize (Hf a r). destruct (f a r) as [r' b|[]|]; eauto.
  Qed.
  Lemma Good_or A (p q : parser I A) : Good p -> Good q -> Good (alt_or p q).
  Proof.
    intros Hp Hq i. unfold alt_or. specialize (Hp i). destruct (p i) as [r a|[]|]; auto. apply Hq.
  Qed.
  Lemma Good_end A : Good (@alt_end I A).
  Proof. intros i; cbn; auto. Qed.
  Lemma Good_opt A (p : parser I A) : Good p -> Good (opt p).
  Proof. intros Hp i. unfold opt. specialize (Hp i). destruct (p i) as [r a|[]|]; auto. Qed.
  Lemma Good_many0_loop A (p : parser I A) fuel : Good p -> forall acc, Good (fun i => many0_loop same fuel p i acc).
  Proof.
    intros Hp. induction fuel as [|fuel IH]; intros acc i; cbn; auto.
    specialize (Hp i). destruct (p i) as [r a|[]|]; auto.
    destruct (same r i); auto.
    specialize (IH (acc ++ [a]) r). cbn in IH. destruct (many0_loop same fuel p r (acc ++ [a])) as [r' b|[]|]; eauto.
  Qed.
  Lemma Good_many0 A (p : parser I A) fuel : Good p -> Good (many0 same fuel p).
  Proof. intros Hp. apply (Good_many0_loop _ _ fuel Hp []). Qed.
  Lemma Good_sep_loop A S (s : parser I S) (p : parser I A) fuel :
    Good s -> Good p -> forall acc, Good (fun i => sep_loop same fuel s p i acc).
  Proof.
    intros Hs Hp. induction fuel as [|fuel IH]; intros acc i; cbn; auto.
    specialize (Hs i). destruct (s i) as [r a|[]|]; auto.
    destruct (same r i); auto.
    specialize (Hp r). destruct (p r) as [r' b|[]|]; auto.
    destruct (same r' i); eauto.
    specialize (IH (acc ++ [b]) r'). cbn in IH.
    destruct (sep_loop same fuel s p r' (acc ++ [b])) as [r'' c|[]|]; eauto.
  Qed.
  Lemma Good_separated_list A S (s : parser I S) (p : parser I A) fuel :
    Good s -> Good p -> Good (separated_list same fuel s p).
  Proof.
    intros Hs Hp i. unfold separated_list. pose proof (Hp i) as H. destruct (p i) as [r a|[]|]; auto.
    destruct (same r i); auto.
    pose proof (Good_sep_loop _ _ s p fuel Hs Hp [a] r) as H'. cbn in H'.
    destruct (sep_loop same fuel s p r [a]) as [r' b|[]|]; eauto.
  Qed.
  Lemma Good_separated_nonempty_list A S (s : parser I S) (p : parser I A) fuel :
    Good s -> Good p -> Good (separated_nonempty_list same fuel s p).
  Proof.
    intros Hs Hp i. unfold separated_nonempty_list. pose proof (Hp i) as H. destruct (p i) as [r a|[]|]; auto.
    destruct (same r i); auto.
    pose proof (Good_sep_loop _ _ s p fuel Hs Hp [a] r) as H'. cbn in H'.
    destruct (sep_loop same fuel s p r [a]) as [r' b|[]|]; eauto.
  Qed.

  Hypothesis tsem_Good : forall A (t : terminal A), Good (tsem A t).

  Theorem run_Good n : forall A (p : pexp A), Good (run same tsem n A p).
  Proof.
    induction n as [n IHn] using lt_wf_ind.
    induction p as [A t|A a|A B p IHp f IHf|A p IHp q IHq|A|A p IHp|A p IHp|S A s IHs p IHp|S A s IHs p IHp|A x];
      runs; auto using Good_ret, Good_bind, Good_or, Good_end, Good_opt, Good_many0, Good_separated_list,
        Good_separated_nonempty_list.
    destruct n; [intros i; cbn; auto|]. rewrite run_nt_S. apply IHn. lia.
  Qed.
End Inv.

(** ** More fuel does not change a result *)
Section Mono.
  Context {I : Type} (same : I -> I -> bool) (tsem : forall A, terminal A -> parser I A).

  (** [q] agrees with [p] wherever [p] returns. *)
  Definition Ext {A} (p q : parser I A) : Prop := forall i, p i <> Diverge -> q i = p i.

  Lemma Ext_bind A B (p p' : parser I A) (f f' : A -> parser I B) :
    Ext p p' -> (forall a, Ext (f a) (f' a)) -> Ext (bind p f) (bind p' f').
  Proof.
    intros Hp Hf i. unfold bind. intros H. rewrite Hp by (intros E; rewrite E in H; auto).
    destruct (p i); auto. apply Hf; auto.
  Qed.
  Lemma Ext_or A (p p' q q' : parser I A) : Ext p p' -> Ext q q' -> Ext (alt_or p q) (alt_or p' q').
  Proof.
    intros Hp Hq i. unfold alt_or. intros H. rewrite Hp by (intros E; rewrite E in H; auto).
    destruct (p i) as [|[]|]; auto.
  Qed.
  Lemma Ext_opt A (p p' : parser I A) : Ext p p' -> Ext (opt p) (opt p').
  Proof. intros Hp i. unfold opt. intros H. rewrite Hp by (intros E; rewrite E in H; auto). auto. Qed.
  Lemma Ext_many0_loop A (p p' : parser I A) n : forall m, n <= m -> Ext p p' ->
    forall i acc, many0_loop same n p i acc <> Diverge -> many0_loop same m p' i acc = many0_loop same n p i acc.
  Proof.
    induction n as [|n IH]; intros m Hm Hp i acc H; cbn in H; [congruence|].
    destruct m as [|m]; [lia|]. cbn. rewrite Hp by (intros E; rewrite E in H; auto).
    destruct (p i) as [r a|[]|]; auto. destruct (same r i); auto. apply IH; auto; lia.
  Qed.
  Lemma Ext_sep_loop A S (s s' : parser I S) (p p' : parser I A) n : forall m, n <= m -> Ext s s' -> Ext p p' ->
    forall i acc, sep_loop same n s p i acc <> Diverge -> sep_loop same m s' p' i acc = sep_loop same n s p i acc.
  Proof.
    induction n as [|n IH]; intros m Hm Hs Hp i acc H; cbn in H; [congruence|].
    destruct m as [|m]; [lia|]. cbn. rewrite Hs by (intros E; rewrite E in H; auto).
    destruct (s i) as [r a|[]|]; auto. destruct (same r i); auto.
    rewrite Hp by (intros E; rewrite E in H; auto).
    destruct (p r) as [r' b|[]|]; auto. destruct (same r' i); auto. apply IH; auto; lia.
  Qed.

  Theorem run_mono : forall n m, n <= m -> forall A (p : pexp A), Ext (run same tsem n A p) (run same tsem m A p).
  Proof.
    induction n as [n IHn] using lt_wf_ind. intros m Hm.
    induction p as [A t|A a|A B p IHp f IHf|A p IHp q IHq|A|A p IHp|A p IHp|S A s IHs p IHp|S A s IHs p IHp|A x];
      runs; auto using Ext_bind, Ext_or, Ext_opt; try (intros i; auto; fail).
    - intros i H. unfold many0 in *. apply Ext_many0_loop; auto.
    - intros i H. unfold separated_list in *. rewrite IHp by (intros E; rewrite E in H; auto).
      destruct (run same tsem n A p i) as [r a|[]|]; auto. destruct (same r i); auto. apply Ext_sep_loop; auto.
    - intros i H. unfold separated_nonempty_list in *. rewrite IHp by (intros E; rewrite E in H; auto).
      destruct (run same tsem n A p i) as [r a|[]|]; auto. destruct (same r i); auto. apply Ext_sep_loop; auto.
    - destruct n as [|n]; [intros i H; cbn in H; congruence|]. destruct m as [|m]; [lia|].
      rewrite !run_nt_S. apply IHn; lia.
  Qed.

  Corollary run_mono_eq n m A (p : pexp A) i o : n <= m -> run same tsem n A p i = o -> o <> Diverge ->
    run same tsem m A p i = o.
  Proof. intros H <- H'. apply run_mono; auto. Qed.
End Mono.

(** ** Progress and termination *)
Section Term.
  Context {I : Type} (same : I -> I -> bool) (tsem : forall A, terminal A -> parser I A) (len : I -> nat).
  Variable Suf : I -> I -> Prop.
  Hypothesis Suf_refl : forall i, Suf i i.
  Hypothesis Suf_trans : forall i j k, Suf j i -> Suf k j -> Suf k i.
  Hypothesis Suf_len : forall i r, Suf r i -> same r i = false -> len r < len i.
  Hypothesis tsem_Good : forall A (t : terminal A), Good Suf (tsem A t).
  Hypothesis tsem_consumes : forall A (t : terminal A) i r a, tsem A t i = Ok r a -> len r < len i.
  Hypothesis tsem_returns : forall A (t : terminal A) i, tsem A t i <> Diverge.
  Hypothesis grammar_Shape : forall A (x : nt A), Shape false (grammar x) true.

  Definition Le {A} (c : bool) (p : parser I A) : Prop := forall i r a, p i = Ok r a -> len r + (if c then 1 else 0) <= len i.

  Lemma Le_weaken A (p : parser I A) c : Le c p -> Le false p.
  Proof. intros H i r a E. specialize (H i r a E). destruct c; lia. Qed.

  Lemma run_progress n A (p : pexp A) i r a : run same tsem n A p i = Ok r a -> same r i = false -> len r < len i.
  Proof.
    intros E H. pose proof (run_Good same tsem Suf Suf_refl Suf_trans tsem_Good n A p i) as HG. rewrite E in HG. auto.
  Qed.

  Lemma Le_many0_loop A (p : parser I A) fuel : Le false p ->
    forall i acc r l, many0_loop same fuel p i acc = Ok r l -> len r <= len i.
  Proof.
    intros Hp. induction fuel as [|fuel IH]; intros i acc r l; cbn; [discriminate|].
    destruct (p i) as [r' a|[]|] eqn:E; try discriminate.
    - destruct (same r' i); [discriminate|]. intros H. apply IH in H. apply Hp in E. lia.
    - intros [= <- <-]. lia.
  Qed.
  Lemma Le_sep_loop A S (s : parser I S) (p : parser I A) fuel : Le false s -> Le false p ->
    forall i acc r l, sep_loop same fuel s p i acc = Ok r l -> len r <= len i.
  Proof.
    intros Hs Hp. induction fuel as [|fuel IH]; intros i acc r l; cbn; [discriminate|].
    destruct (s i) as [r' a|[]|] eqn:E; try discriminate.
    - destruct (same r' i); [discriminate|].
      destruct (p r') as [r'' b|[]|] eqn:E'; try discriminate.
      + destruct (same r'' i); [discriminate|]. intros H. apply IH in H. apply Hp in E'. apply Hs in E. lia.
      + intros [= <- <-]. lia.
    - intros [= <- <-]. lia.
  Qed.

  (** Nothing grows, and consuming expressions shrink their input. *)
  Theorem run_Le n : forall A (p : pexp A) al c, Shape al p c -> Le c (run same tsem n A p).
  Proof.
    induction n as [n IHn] using lt_wf_ind.
    induction p as [A t|A a|A B p IHp f IHf|A p IHp q IHq|A|A p IHp|A p IHp|S A s IHs p IHp|S A s IHs p IHp|A x];
      intros al c HS i r v; runs; cbn in HS.
    - intros H. apply tsem_consumes in H. destruct c; lia.
    - subst. cbn. intros [= <- <-]. lia.
    - destruct HS as (c1 & c2 & H1 & H2 & H3). unfold bind.
      destruct (run same tsem n A p i) as [r' a|[]|] eqn:E; try discriminate.
      intros H. apply (IHp _ _ H1) in E. apply (IHf _ _ _ (H2 a)) in H. destruct c, c1, c2; cbn in *; lia.
    - destruct HS as (H1 & H2). unfold alt_or.
      destruct (run same tsem n A p i) as [r' a|[]|] eqn:E; try discriminate.
      + intros [= <- <-]. eapply IHp; eauto.
      + intros H. eapply IHq; eauto.
    - discriminate.
    - destruct HS as ((c1 & H1) & ->). unfold opt.
      destruct (run same tsem n A p i) as [r' a|[]|] eqn:E; try discriminate; intros [= <- <-].
      + apply (IHp _ _ H1) in E. lia.
      + lia.
    - destruct HS as (H1 & ->). unfold many0. intros H.
      apply Le_many0_loop in H; [lia|]. eapply Le_weaken, IHp; eauto.
    - destruct HS as (H1 & H2 & ->). unfold separated_list.
      destruct (run same tsem n A p i) as [r' a|[]|] eqn:E; try discriminate.
      + destruct (same r' i); [discriminate|]. intros H.
        apply Le_sep_loop in H; [|eapply Le_weaken, IHs; eauto|eapply Le_weaken, IHp; eauto].
        apply (IHp _ _ H2) in E. lia.
      + intros [= <- <-]. lia.
    - destruct HS as (H1 & H2). unfold separated_nonempty_list.
      destruct (run same tsem n A p i) as [r' a|[]|] eqn:E; try discriminate.
      destruct (same r' i) eqn:Es; [discriminate|]. intros H.
      apply Le_sep_loop in H; [|eapply Le_weaken, IHs; eauto|eapply Le_weaken, IHp; eauto].
      apply run_progress in E; auto. destruct c; lia.
    - destruct n as [|n]; [discriminate|]. rewrite run_nt_S. intros H.
      pose proof (IHn n (Nat.lt_succ_diag_r n) _ _ _ _ (grammar_Shape A x) i r v H) as H'. cbn in H'. destruct c; lia.
  Qed.

  Lemma Total_many0_loop A (p : parser I A) fuel k : (forall i r a, p i = Ok r a -> same r i = false -> len r < len i) -> (forall i, len i <= k -> p i <> Diverge) ->
    forall i acc, len i <= k -> len i < fuel -> many0_loop same fuel p i acc <> Diverge.
  Proof.
    intros Hp Ht. induction fuel as [|fuel IH]; intros i acc Hk Hf; [lia|]. cbn.
    pose proof (Ht i Hk). destruct (p i) as [r a|[]|] eqn:E; try congruence.
    destruct (same r i) eqn:Es; [congruence|]. apply Hp in E; auto. apply IH; lia.
  Qed.
  Lemma Total_sep_loop A S (s : parser I S) (p : parser I A) fuel k :
    (forall i r a, s i = Ok r a -> same r i = false -> len r < len i) -> Le false p ->
    (forall i, len i <= k -> s i <> Diverge) -> (forall i, len i <= k -> p i <> Diverge) ->
    forall i acc, len i <= k -> len i < fuel -> sep_loop same fuel s p i acc <> Diverge.
  Proof.
    intros Hs Hp Hs' Hp'. induction fuel as [|fuel IH]; intros i acc Hk Hf; [lia|]. cbn.
    pose proof (Hs' i Hk). destruct (s i) as [r a|[]|] eqn:E; try congruence.
    destruct (same r i) eqn:Es; [congruence|]. apply Hs in E; auto.
    assert (Hr : len r <= k) by lia. pose proof (Hp' r Hr). destruct (p r) as [r' b|[]|] eqn:E'; try congruence.
    destruct (same r' i); [congruence|]. apply Hp in E'. apply IH; lia.
  Qed.

  (** Enough fuel for the length of the input is enough. *)
  Theorem run_Total n : forall A (p : pexp A) al c, Shape al p c ->
    forall i, len i + (if al then 1 else 0) < n -> run same tsem n A p i <> Diverge.
  Proof.
    induction n as [n IHn] using lt_wf_ind.
    induction p as [A t|A a|A B p IHp f IHf|A p IHp q IHq|A|A p IHp|A p IHp|S A s IHs p IHp|S A s IHs p IHp|A x];
      intros al c HS i Hi; runs; cbn in HS.
    - apply tsem_returns.
    - discriminate.
    - destruct HS as (c1 & c2 & H1 & H2 & H3). unfold bind.
      pose proof (IHp _ _ H1 i Hi). destruct (run same tsem n A p i) as [r' a|[]|] eqn:E; try congruence.
      apply (IHf a _ _ (H2 a)). apply (run_Le n A p _ _ H1) in E. destruct al, c1; cbn in *; lia.
    - destruct HS as (H1 & H2). unfold alt_or.
      pose proof (IHp _ _ H1 i Hi). pose proof (IHq _ _ H2 i Hi).
      destruct (run same tsem n A p i) as [r' a|[]|] eqn:E; try congruence.
    - discriminate.
    - destruct HS as ((c1 & H1) & ->). unfold opt.
      pose proof (IHp _ _ H1 i Hi). destruct (run same tsem n A p i) as [r' a|[]|] eqn:E; try congruence.
    - destruct HS as (H1 & ->). unfold many0.
      apply (Total_many0_loop _ _ _ (len i)); auto; try (destruct al; lia).
      + intros j r v. apply run_progress.
      + intros j Hj. apply (IHp _ _ H1). destruct al; lia.
    - destruct HS as (H1 & H2 & ->). unfold separated_list.
      pose proof (IHp _ _ H2 i Hi). destruct (run same tsem n A p i) as [r' a|[]|] eqn:E; try congruence.
      destruct (same r' i); [congruence|]. apply (run_Le n A p _ _ H2) in E.
      apply (Total_sep_loop _ _ _ _ _ (len i)); auto; try (destruct al; lia).
      + intros j r v. apply run_progress.
      + apply (run_Le n A p _ _ H2).
      + intros j Hj. apply (IHs _ _ H1). destruct al; lia.
      + intros j Hj. apply (IHp _ _ H2). destruct al; lia.
    - destruct HS as (H1 & H2). unfold separated_nonempty_list.
      pose proof (IHp _ _ H2 i Hi). destruct (run same tsem n A p i) as [r' a|[]|] eqn:E; try congruence.
      destruct (same r' i); [congruence|]. apply (run_Le n A p _ _ H2) in E.
      apply (Total_sep_loop _ _ _ _ _ (len i)); auto; try (destruct al; lia).
      + intros j r v. apply run_progress.
      + apply (run_Le n A p _ _ H2).
      + intros j Hj. apply (IHs _ _ H1). destruct al; lia.
      + intros j Hj. apply (IHp _ _ H2). destruct al; lia.
    - subst al. destruct n as [|n]; [lia|]. rewrite run_nt_S. apply (IHn n (Nat.lt_succ_diag_r n) _ _ _ _ (grammar_Shape A x)). lia.
  Qed.

  (** Any two sufficient amounts of fuel give the same result. *)
  Corollary run_fuel n m A (p : pexp A) c i : Shape false p c -> len i < n -> len i < m ->
    run same tsem n A p i = run same tsem m A p i.
  Proof.
    intros HS Hn Hm. destruct (Nat.le_ge_cases n m) as [H|H].
    - symmetry. apply (run_mono same tsem n m H). eapply run_Total; eauto. cbn; lia.
    - apply (run_mono same tsem m n H). eapply run_Total; eauto. cbn; lia.
  Qed.
End Term.

(** ** All expressions of the grammar have a good shape *)
Lemma Shape_bind_t al A B (p : pexp A) (f : A -> pexp B) c c2 :
  Shape al p true -> (forall a, Shape true (f a) c2) -> Shape al (PBind p f) c.
Proof.
  intros H1 H2. exists true, c2. repeat split; auto. intros a. rewrite orb_true_r. auto.
  destruct c; auto.
Qed.
Lemma Shape_bind_f al A B (p : pexp A) (f : A -> pexp B) c :
  Shape al p false -> (forall a, Shape al (f a) c) -> Shape al (PBind p f) c.
Proof.
  intros H1 H2. exists false, c. repeat split; auto. intros a. rewrite orb_false_r. auto.
  destruct c; auto.
Qed.

Lemma Shape_map al A B (f : A -> B) (p : pexp A) c : Shape al p c -> Shape al (PMap f p) c.
Proof.
  intros H. destruct c.
  - eapply Shape_bind_t; eauto. intros a. exact (eq_refl false).
  - apply Shape_bind_f; auto. intros a. reflexivity.
Qed.

Ltac shape1 :=
  match goal with
  | |- Shape _ (PMap _ _) _ => apply Shape_map
  | |- Shape _ (PTerm _) _ => exact Logic.I
  | |- Shape _ (T_ _) _ => exact Logic.I
  | |- Shape _ (PRet _) _ => exact (eq_refl false)
  | |- Shape _ PEnd _ => exact Logic.I
  | |- Shape _ (PAlt _) _ => cbn [PAlt]
  | |- Shape _ (POr _ _) _ => split
  | |- Shape _ (POpt _) _ => split; [exists true | exact (eq_refl false)]
  | |- Shape _ (e_Option _) _ => split; [exists true | exact (eq_refl false)]
  | |- Shape _ (PMany0 _) _ => split; [| exact (eq_refl false)]
  | |- Shape _ (PSepList _ _) _ => split; [| split; [| exact (eq_refl false)]]
  | |- Shape _ (PSepNonEmpty _ _) _ => split
  | |- Shape _ (PNT _) _ => exact (eq_refl true)
  | |- Shape _ (PBind (e_Option _) _) _ => apply Shape_bind_f; [|intros ?]
  | |- Shape _ (PBind (POpt _) _) _ => apply Shape_bind_f; [|intros ?]
  | |- Shape _ (PBind (PSepList _ _) _) _ => apply Shape_bind_f; [|intros ?]
  | |- Shape _ (PBind (PMany0 _) _) _ => apply Shape_bind_f; [|intros ?]
  | |- Shape _ (PBind (e_Vec _) _) _ => apply Shape_bind_f; [|intros ?]
  | |- Shape _ (PBind (e_Punctuated _ _) _) _ => apply Shape_bind_f; [|intros ?]
  | |- Shape _ (PBind e_attributes _) _ => apply Shape_bind_f; [|intros ?]
  | |- Shape _ (PBind _ _) _ => apply Shape_bind_t with (c2 := false); [|intros ?]
  end.
Create HintDb shape discriminated.
Ltac shape := repeat first [solve [eauto with shape] | shape1].
