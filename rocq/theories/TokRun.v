(** * Running parsers on tokens: inversion and composition. *)
From Coq Require Import String Ascii NArith Arith Bool List Lia.
From Verif Require Import Nom Lex Ast Grammar Spec LexFacts NumFacts TokFacts RunFacts Shapes TermFacts Api ApiFacts LexProps Tok.
Import ListNotations.
Open Scope list_scope.

(** ** Facts that hold as they do on text *)
Definition KSuf (r i : list tok) : Prop := exists x, i = x ++ r.
Lemma KSuf_refl i : KSuf i i. Proof. exists []; auto. Qed.
Lemma KSuf_trans i j k : KSuf j i -> KSuf k j -> KSuf k i.
Proof. intros [x ->] [y ->]. exists (x ++ y). rewrite app_assoc; auto. Qed.
Lemma KSuf_cons t r i : KSuf r i -> KSuf r (t :: i).
Proof. intros [x ->]. exists (t :: x). auto. Qed.
Lemma KSuf_len i r : KSuf r i -> toks_same r i = false -> length r < length i.
Proof.
  intros [x ->] H. unfold toks_same in H. apply Nat.eqb_neq in H. rewrite app_length in *. lia.
Qed.
Lemma tok_sem_ok A (t : terminal A) i r a : tok_sem A t i = Ok r a -> KSuf r i /\ length r < length i.
Proof.
  destruct t as [t| | | |]; cbn [tok_sem].
  - destruct i as [|x i]; [discriminate|]. destruct (tok_eqb x (term_tok t)); [|discriminate].
    intros [= <-]. split; [exists [x]; auto|cbn; lia].
  - destruct i as [|[e n|s| |l|s|s] i]; try discriminate. intros [= <- <-]. split; [exists [TName e n]; auto|cbn; lia].
  - destruct i as [|[e n|s| |l|s|s] i]; try discriminate. intros [= <- <-]. split; [exists [TStr s]; auto|cbn; lia].
  - destruct (default_of i) as [[v r']|] eqn:E; [|discriminate]. intros [= <- <-]. apply default_of_ok in E. subst.
    destruct (default_toks_cons v) as (x & l & ->). split; [exists (x :: l); auto|]. rewrite app_length. cbn. lia.
  - destruct (const_of i) as [[v r']|] eqn:E; [|discriminate]. intros [= <- <-]. apply const_of_ok in E. subst.
    assert (const_toks v <> []) by (destruct v as [b|f|l|]; try discriminate; destruct f; discriminate).
    split; [exists (const_toks v); auto|]. rewrite app_length. destruct (const_toks v); [congruence|]. cbn. lia.
Qed.
Lemma tok_sem_Good A (t : terminal A) : Good KSuf (tok_sem A t).
Proof.
  intros i. destruct (tok_sem A t i) as [r a|e|] eqn:E.
  - apply tok_sem_ok in E. tauto.
  - assert (H : e = Error i KTag); [|rewrite H; apply KSuf_refl].
    destruct t as [t| | | |]; cbn [tok_sem] in E.
    + destruct i as [|x i]; [|destruct (tok_eqb x (term_tok t))]; unfold tfail in E; congruence.
    + destruct i as [|[] i]; unfold tfail in E; congruence.
    + destruct i as [|[] i]; unfold tfail in E; congruence.
    + destruct (default_of i) as [[]|]; unfold tfail in E; congruence.
    + destruct (const_of i) as [[]|]; unfold tfail in E; congruence.
  - exact Logic.I.
Qed.
Lemma tok_sem_consumes A (t : terminal A) i r a : tok_sem A t i = Ok r a -> length r < length i.
Proof. apply tok_sem_ok. Qed.
Lemma tok_sem_returns A (t : terminal A) i : tok_sem A t i <> Diverge.
Proof.
  destruct t as [t| | | |]; cbn [tok_sem].
  - destruct i as [|x i]; [|destruct (tok_eqb x (term_tok t))]; discriminate.
  - destruct i as [|[] i]; discriminate.
  - destruct i as [|[] i]; discriminate.
  - destruct (default_of i) as [[]|]; discriminate.
  - destruct (const_of i) as [[]|]; discriminate.
Qed.

Lemma krun_Good n A (p : pexp A) : Good KSuf (krun n A p).
Proof. apply run_Good; auto using tok_sem_Good. apply KSuf_refl. apply KSuf_trans. Qed.
Lemma krun_Le n A (p : pexp A) al c : Shape al p c -> forall i r a, krun n A p i = Ok r a -> length r + (if c then 1 else 0) <= length i.
Proof.
  intros H. apply (run_Le toks_same tok_sem (@length _) KSuf KSuf_refl KSuf_trans KSuf_len tok_sem_Good tok_sem_consumes grammar_Shape n A p al c H).
Qed.
Lemma krun_Total n A (p : pexp A) al c i : Shape al p c -> length i + (if al then 1 else 0) < n -> krun n A p i <> Diverge.
Proof.
  intros H. revert i.
  apply (run_Total toks_same tok_sem (@length _) KSuf KSuf_refl KSuf_trans KSuf_len tok_sem_Good tok_sem_consumes tok_sem_returns grammar_Shape n A p al c H).
Qed.
Lemma krun_mono n m A (p : pexp A) i o : n <= m -> krun n A p i = o -> o <> Diverge -> krun m A p i = o.
Proof. apply run_mono_eq. Qed.
Lemma krun_err n A (p : pexp A) i e : krun n A p i = Err e -> exists j k, e = Error j k.
Proof. intros E. pose proof (krun_Good n A p i) as H. rewrite E in H. destruct e; try contradiction. eauto. Qed.

(** ** Outcomes independent of fuel *)
Definition Ev {A} (p : pexp A) (i : list tok) (o : option (A * list tok)) : Prop :=
  exists n, forall m, n <= m ->
    match o with
    | Some (a, r) => krun m A p i = Ok r a
    | None => exists j k, krun m A p i = Err (Error j k)
    end.

Lemma Ev_det A (p : pexp A) i o o' : Ev p i o -> Ev p i o' -> o = o'.
Proof.
  intros [n H] [n' H']. specialize (H (max n n') ltac:(lia)). specialize (H' (max n n') ltac:(lia)).
  destruct o as [[a r]|], o' as [[a' r']|]; auto.
  - congruence.
  - destruct H' as (j & k & H'). congruence.
  - destruct H as (j & k & H). congruence.
Qed.
Lemma Ev_run n A (p : pexp A) i : krun n A p i <> Diverge ->
  Ev p i (match krun n A p i with Ok r a => Some (a, r) | _ => None end).
Proof.
  intros H. exists n. intros m Hm. destruct (krun n A p i) as [r a|e|] eqn:E; [| |congruence].
  - eapply krun_mono; eauto.
  - destruct (krun_err _ _ _ _ _ E) as (j & k & ->). exists j, k. eapply krun_mono; eauto.
Qed.
Lemma Ev_total A (p : pexp A) al c i : Shape al p c -> exists o, Ev p i o.
Proof. intros H. eexists. apply (Ev_run (S (S (length i)))). eapply krun_Total; eauto. destruct al; lia. Qed.
Lemma Ev_krun A (p : pexp A) i o : Ev p i o -> forall n, krun n A p i <> Diverge ->
  match o with
  | Some (a, r) => krun n A p i = Ok r a
  | None => exists j k, krun n A p i = Err (Error j k)
  end.
Proof.
  intros H n Hn. pose proof (Ev_det _ _ _ _ _ H (Ev_run n A p i Hn)) as ->.
  destruct (krun n A p i) as [r a|e|] eqn:E; auto; [|congruence]. destruct (krun_err _ _ _ _ _ E) as (j & k & ->). eauto.
Qed.
Lemma Ev_Some A (p : pexp A) i a r : Ev p i (Some (a, r)) <-> exists n, krun n A p i = Ok r a.
Proof.
  split.
  - intros [n H]. exists n. apply H; auto.
  - intros [n H]. pose proof (Ev_run n A p i) as H'. rewrite H in H'. apply H'. discriminate.
Qed.
Lemma Ev_None A (p : pexp A) i : Ev p i None <-> exists n j k, krun n A p i = Err (Error j k).
Proof.
  split.
  - intros [n H]. exists n. apply H; auto.
  - intros (n & j & k & H). pose proof (Ev_run n A p i) as H'. rewrite H in H'. apply H'. discriminate.
Qed.

Lemma Ev_term A (t : terminal A) i r a : tok_sem A t i = Ok r a -> Ev (PTerm t) i (Some (a, r)).
Proof. intros H. exists 0. intros m _. rewrite run_term. auto. Qed.
Lemma Ev_term_no A (t : terminal A) i j k : tok_sem A t i = Err (Error j k) -> Ev (PTerm t) i None.
Proof. intros H. exists 0. intros m _. rewrite run_term. eauto. Qed.
Lemma Ev_ret A (a : A) i : Ev (PRet a) i (Some (a, i)).
Proof. exists 0. intros m _. rewrite run_ret. auto. Qed.
Lemma Ev_bind A B (p : pexp A) (f : A -> pexp B) i a r o :
  Ev p i (Some (a, r)) -> Ev (f a) r o -> Ev (PBind p f) i o.
Proof.
  intros [n H] [n' H']. exists (max n n'). intros m Hm. rewrite run_bind. unfold bind.
  rewrite H by lia. apply H'. lia.
Qed.
Lemma Ev_bind_no A B (p : pexp A) (f : A -> pexp B) i : Ev p i None -> Ev (PBind p f) i None.
Proof.
  intros [n H]. exists n. intros m Hm. rewrite run_bind. unfold bind. destruct (H m Hm) as (j & k & ->). eauto.
Qed.
Lemma Ev_or1 A (p q : pexp A) i a r : Ev p i (Some (a, r)) -> Ev (POr p q) i (Some (a, r)).
Proof. intros [n H]. exists n. intros m Hm. rewrite run_or. unfold alt_or. rewrite H; auto. Qed.
Lemma Ev_or2 A (p q : pexp A) i o : Ev p i None -> Ev q i o -> Ev (POr p q) i o.
Proof.
  intros [n H] [n' H']. exists (max n n'). intros m Hm. rewrite run_or. unfold alt_or.
  destruct (H m) as (j & k & ->); [lia|]. apply H'. lia.
Qed.
Lemma Ev_end A i : Ev (@PEnd A) i None.
Proof. exists 0. intros m _. rewrite run_end. unfold alt_end. eauto. Qed.
Lemma Ev_opt A (p : pexp A) i o : Ev p i o -> Ev (POpt p) i (Some (match o with Some (a, r) => (Some a, r) | None => (None, i) end)).
Proof.
  intros [n H]. exists n. intros m Hm. rewrite run_opt. unfold opt. specialize (H m Hm).
  destruct o as [[a r]|]; [rewrite H; auto|]. destruct H as (j & k & ->). auto.
Qed.
Lemma Ev_nt A (x : nt A) i o : Ev (grammar x) i o -> Ev (PNT x) i o.
Proof. intros [n H]. exists (S n). intros [|m] Hm; [lia|]. rewrite run_nt_S. apply H. lia. Qed.

(** What follows the first item of a separated list. *)
Inductive SepTail {A S} (s : pexp S) (q : pexp A) : list tok -> list A -> list tok -> Prop :=
| ST_stop i : Ev s i None -> SepTail s q i [] i
| ST_back i x j : Ev s i (Some (x, j)) -> length j < length i -> Ev q j None -> SepTail s q i [] i
| ST_more i x j a k l r : Ev s i (Some (x, j)) -> length j < length i -> Ev q j (Some (a, k)) -> length k < length i ->
    SepTail s q k l r -> SepTail s q i (a :: l) r.
Lemma toks_same_lt i j : length j < length i -> toks_same j i = false.
Proof. intros H. apply Nat.eqb_neq. lia. Qed.
Lemma SepTail_loop A S (s : pexp S) (q : pexp A) i l r : SepTail s q i l r ->
  exists n, forall N m acc, n <= N -> n <= m -> sep_loop toks_same N (krun m S s) (krun m A q) i acc = Ok r (acc ++ l).
Proof.
  induction 1 as [i [n H]|i x j [n H] Hj [n' H']|i x j a k l r [n H] Hj [n' H'] Hk _ [n2 IH]].
  - exists (Datatypes.S n). intros [|N] m acc HN Hm; [lia|]. cbn [sep_loop]. destruct (H m) as (p & k & ->); [lia|].
    rewrite app_nil_r. auto.
  - exists (Datatypes.S (max n n')). intros [|N] m acc HN Hm; [lia|]. cbn [sep_loop]. rewrite H by lia.
    rewrite toks_same_lt by auto. destruct (H' m) as (p & k & ->); [lia|]. rewrite app_nil_r. auto.
  - exists (Datatypes.S (max n (max n' n2))). intros [|N] m acc HN Hm; [lia|]. cbn [sep_loop]. rewrite H by lia.
    rewrite toks_same_lt by auto. rewrite H' by lia. rewrite toks_same_lt by auto. rewrite IH by lia.
    rewrite <- app_assoc. auto.
Qed.
Lemma Ev_sep_nil A S (s : pexp S) (q : pexp A) i : Ev q i None -> Ev (PSepList s q) i (Some ([], i)).
Proof.
  intros [n H]. exists n. intros m Hm. rewrite run_seplist. unfold separated_list.
  destruct (H m Hm) as (j & k & ->). auto.
Qed.
Lemma Ev_sep_cons A S (s : pexp S) (q : pexp A) i a j l r : Ev q i (Some (a, j)) -> length j < length i -> SepTail s q j l r ->
  Ev (PSepList s q) i (Some (a :: l, r)).
Proof.
  intros [n H] Hj HT. apply SepTail_loop in HT as [n' HT]. exists (max n n'). intros m Hm. rewrite run_seplist.
  unfold separated_list. rewrite H by lia. rewrite toks_same_lt by auto. rewrite HT by lia. auto.
Qed.
Lemma Ev_sepne_cons A S (s : pexp S) (q : pexp A) i a j l r : Ev q i (Some (a, j)) -> length j < length i -> SepTail s q j l r ->
  Ev (PSepNonEmpty s q) i (Some (a :: l, r)).
Proof.
  intros [n H] Hj HT. apply SepTail_loop in HT as [n' HT]. exists (max n n'). intros m Hm. rewrite run_sepnonempty.
  unfold separated_nonempty_list. rewrite H by lia. rewrite toks_same_lt by auto. rewrite HT by lia. auto.
Qed.
Inductive Many {A} (q : pexp A) : list tok -> list A -> list tok -> Prop :=
| Many_stop i : Ev q i None -> Many q i [] i
| Many_more i a j l r : Ev q i (Some (a, j)) -> length j < length i -> Many q j l r -> Many q i (a :: l) r.
Lemma Ev_many A (q : pexp A) i l r : Many q i l r -> Ev (PMany0 q) i (Some (l, r)).
Proof.
  intros H. assert (H' : exists n, forall N m acc, n <= N -> n <= m -> many0_loop toks_same N (krun m A q) i acc = Ok r (acc ++ l)).
  { induction H as [i [n H]|i a j l r [n H] Hj _ [n' IH]].
    - exists (S n). intros [|N] m acc HN Hm; [lia|]. cbn [many0_loop]. destruct (H m) as (p & k & ->); [lia|].
      rewrite app_nil_r. auto.
    - exists (S (max n n')). intros [|N] m acc HN Hm; [lia|]. cbn [many0_loop]. rewrite H by lia.
      rewrite toks_same_lt by auto. rewrite IH by lia. rewrite <- app_assoc. auto. }
  destruct H' as [n H']. exists n. intros m Hm. rewrite run_many0. unfold many0. rewrite H' by lia. auto.
Qed.

(** ** Inversion *)
Lemma kr_term n t i r v : krun n _ (T_ t) i = Ok r v -> i = term_tok t :: r.
Proof.
  unfold T_. rewrite run_term. cbn [tok_sem]. destruct i as [|x i]; [discriminate|].
  destruct (tok_eqb x (term_tok t)) eqn:E; [|discriminate]. apply tok_eqb_eq in E. congruence.
Qed.
Lemma kr_term_iff n t i r v : krun n _ (T_ t) i = Ok r v <-> i = term_tok t :: r.
Proof.
  split; [apply kr_term|]. intros ->. unfold T_. rewrite run_term. cbn [tok_sem]. rewrite tok_eqb_refl. destruct v; auto.
Qed.
Lemma kr_term_no n t i j k : krun n _ (T_ t) i = Err (Error j k) -> forall r, i <> term_tok t :: r.
Proof. intros H r E. apply (kr_term_iff n _ _ _ tt) in E. congruence. Qed.
Lemma kr_ident n i r v : krun n _ e_Identifier i = Ok r v -> exists e, i = TName e v :: r.
Proof.
  unfold e_Identifier. rewrite run_term. cbn [tok_sem]. destruct i as [|[e m|s| |l|s|s] i]; try discriminate.
  intros [= <- <-]. eauto.
Qed.
Lemma kr_str n i r v : krun n _ (PTerm TmStringLit) i = Ok r v -> i = TStr v :: r.
Proof. rewrite run_term. cbn [tok_sem]. destruct i as [|[e m|s| |l|s|s] i]; try discriminate. congruence. Qed.
Lemma kr_default n i r v : krun n _ (PTerm TmDefaultValue) i = Ok r v -> i = default_toks v ++ r.
Proof.
  rewrite run_term. cbn [tok_sem]. destruct (default_of i) as [[w r']|] eqn:E; [|discriminate]. intros [= <- <-].
  apply default_of_ok; auto.
Qed.
Lemma kr_const n i r v : krun n _ (PTerm TmConstValue) i = Ok r v -> i = const_toks v ++ r.
Proof.
  rewrite run_term. cbn [tok_sem]. destruct (const_of i) as [[w r']|] eqn:E; [|discriminate]. intros [= <- <-].
  apply const_of_ok; auto.
Qed.
Lemma kr_ret n A (a : A) i r v : krun n _ (PRet a) i = Ok r v -> r = i /\ v = a.
Proof. rewrite run_ret. unfold ret. intros [= <- <-]. auto. Qed.
Lemma kr_bind n A B (p : pexp A) (f : A -> pexp B) i r v : krun n _ (PBind p f) i = Ok r v ->
  exists j a, krun n _ p i = Ok j a /\ krun n _ (f a) j = Ok r v.
Proof.
  rewrite run_bind. unfold bind. destruct (krun n A p i) as [j a| |]; try discriminate. eauto.
Qed.
Lemma kr_map n A B (f : A -> B) (p : pexp A) i r v : krun n _ (PMap f p) i = Ok r v ->
  exists a, krun n _ p i = Ok r a /\ v = f a.
Proof. intros H. apply kr_bind in H as (j & a & H1 & H2). apply kr_ret in H2 as [-> ->]. eauto. Qed.
Lemma kr_map_err n A B (f : A -> B) (p : pexp A) i j k : krun n _ (PMap f p) i = Err (Error j k) -> krun n _ p i = Err (Error j k).
Proof.
  unfold PMap. rewrite run_bind. unfold bind. destruct (krun n A p i) as [r a|e|]; try discriminate.
  - rewrite run_ret. discriminate.
  - congruence.
Qed.
Lemma kr_or n A (p q : pexp A) i r v : krun n _ (POr p q) i = Ok r v ->
  krun n _ p i = Ok r v \/ (exists j k, krun n _ p i = Err (Error j k)) /\ krun n _ q i = Ok r v.
Proof. rewrite run_or. unfold alt_or. destruct (krun n A p i) as [j a|[]|]; try discriminate; eauto. Qed.
Lemma kr_or_map n A B (f : A -> B) (p : pexp A) q i r v : krun n _ (POr (PMap f p) q) i = Ok r v ->
  (exists a, krun n _ p i = Ok r a /\ v = f a) \/ (exists j k, krun n _ p i = Err (Error j k)) /\ krun n _ q i = Ok r v.
Proof.
  intros H. apply kr_or in H as [H|[(j & k & H) H']]; [left; apply kr_map; auto|].
  apply kr_map_err in H. eauto.
Qed.
Lemma kr_end n A i r v : krun n A PEnd i = Ok r v -> False.
Proof. rewrite run_end. discriminate. Qed.
Lemma kr_opt n A (p : pexp A) i r v : krun n _ (POpt p) i = Ok r v ->
  match v with
  | Some a => krun n _ p i = Ok r a
  | None => r = i /\ exists j k, krun n _ p i = Err (Error j k)
  end.
Proof.
  rewrite run_opt. unfold opt. destruct (krun n A p i) as [j a|[]|]; try discriminate; intros [= <- <-]; eauto.
Qed.

(** Lists: [S a i j] says what a successful item means. *)
Section Lists.
  Context {A : Type} (n : nat) (q : pexp A) (P : A -> list tok -> list tok -> Prop).
  Hypothesis HP : forall i r a, krun n _ q i = Ok r a -> P a i r.
  Inductive Chained : list tok -> list A -> list tok -> Prop :=
  | Ch_nil i : Chained i [] i
  | Ch_cons i a j l r : P a i j -> Chained j l r -> Chained i (a :: l) r.
  Lemma kr_many i r l : krun n _ (PMany0 q) i = Ok r l -> Chained i l r.
  Proof.
    rewrite run_many0. unfold many0.
    assert (H : forall N i acc, many0_loop toks_same N (krun n A q) i acc = Ok r l -> exists l', l = acc ++ l' /\ Chained i l' r).
    { clear i. induction N as [|N IH]; intros i acc; cbn [many0_loop]; [discriminate|].
      destruct (krun n A q i) as [j a|[]|] eqn:E; try discriminate.
      - destruct (toks_same j i); [discriminate|]. intros H. apply IH in H as (l' & -> & H).
        exists (a :: l'). rewrite <- app_assoc. split; auto. econstructor; eauto.
      - intros [= <- <-]. exists []. rewrite app_nil_r. split; auto. constructor. }
    intros H'. apply H in H' as (l' & -> & H'). auto.
  Qed.
  (** Items with a separator before each. *)
  Variable t : term.
  Inductive SepChained : list tok -> list A -> list tok -> Prop :=
  | SCh_nil i : SepChained i [] i
  | SCh_cons i a j l r : P a i j -> SepChained j l r -> SepChained (term_tok t :: i) (a :: l) r.
  Lemma kr_sep_loop N : forall i acc r l, sep_loop toks_same N (krun n _ (T_ t)) (krun n A q) i acc = Ok r l ->
    exists l', l = acc ++ l' /\ SepChained i l' r.
  Proof.
    induction N as [|N IH]; intros i acc r l; cbn [sep_loop]; [discriminate|].
    destruct (krun n _ (T_ t) i) as [j x|[]|] eqn:Es; try discriminate.
    - destruct (toks_same j i); [discriminate|]. apply kr_term in Es. subst i.
      destruct (krun n A q j) as [k a|[]|] eqn:E; try discriminate.
      + destruct (toks_same k _); [discriminate|]. intros H. apply IH in H as (l' & -> & H).
        exists (a :: l'). rewrite <- app_assoc. split; auto. econstructor; eauto.
      + intros [= <- <-]. exists []. rewrite app_nil_r. split; auto. constructor.
    - intros [= <- <-]. exists []. rewrite app_nil_r. split; auto. constructor.
  Qed.
  Lemma kr_seplist i r l : krun n _ (e_Punctuated q t) i = Ok r l ->
    match l with
    | [] => r = i
    | a :: l' => exists j, P a i j /\ SepChained j l' r
    end.
  Proof.
    unfold e_Punctuated. intros H. apply kr_bind in H as (j & l' & H & H'). apply kr_ret in H' as [-> ->].
    rewrite run_seplist in H. unfold separated_list in H.
    destruct (krun n A q i) as [k a|[]|] eqn:E; try discriminate.
    - destruct (toks_same k i); [discriminate|]. apply kr_sep_loop in H as (l2 & -> & H). cbn. eauto.
    - injection H as <- <-. auto.
  Qed.
  Lemma kr_sepne i r l : krun n _ (PSepNonEmpty (T_ t) q) i = Ok r l ->
    match l with
    | [] => False
    | a :: l' => exists j, P a i j /\ SepChained j l' r
    end.
  Proof.
    rewrite run_sepnonempty. unfold separated_nonempty_list. intros H.
    destruct (krun n A q i) as [k a|[]|] eqn:E; try discriminate.
    destruct (toks_same k i); [discriminate|]. apply kr_sep_loop in H as (l2 & -> & H). cbn. eauto.
  Qed.
End Lists.

(** ** Concrete syntax *)
Lemma Conc_app g1 g2 i j r : Conc g1 i j -> Conc g2 j r -> Conc (g1 ++ g2) i r.
Proof. induction 1; intros H'; cbn; auto; constructor; auto. Qed.
Lemma Conc_split g1 : forall g2 i r, Conc (g1 ++ g2) i r -> exists j, Conc g1 i j /\ Conc g2 j r.
Proof.
  induction g1 as [|x g1 IH]; cbn; intros g2 i r H.
  - exists i. split; auto. constructor.
  - inversion H; subst; match goal with K : Conc (g1 ++ g2) _ _ |- _ => apply IH in K as (j & K1 & K2) end;
      exists j; split; auto; constructor; auto.
Qed.
Lemma Conc_suffix g i r : Conc g i r -> KSuf r i.
Proof. induction 1; auto using KSuf_refl, KSuf_cons. Qed.
Lemma join_cons {A} sep (f : A -> list gtok) a l :
  join sep (map f (a :: l)) = f a ++ flat_map (fun x => sep :: f x) l.
Proof.
  revert a. induction l as [|b l IH]; intros a; [cbn; rewrite app_nil_r; auto|].
  change (join sep (map f (a :: b :: l))) with (f a ++ sep :: join sep (map f (b :: l))). rewrite IH. reflexivity.
Qed.

(** The first token is not a word of [bad] (written without underscore). *)
Definition not_head (bad : list string) (i : list tok) : Prop :=
  forall n r, i = TName false n :: r -> ~ In n (map str bad).
Lemma not_head_nil i : not_head [] i.
Proof. intros n r _ []. Qed.
Lemma not_head_cons s bad i : (forall r, i <> TName false (str s) :: r) -> not_head bad i -> not_head (s :: bad) i.
Proof. intros H H' n r -> [<-|Hn]; [eapply H; eauto|eapply H'; eauto]. Qed.
Lemma not_head_app b1 b2 i : not_head b1 i -> not_head b2 i -> not_head (b1 ++ b2) i.
Proof. intros H1 H2 n r E. rewrite map_app, in_app_iff. intros [H|H]; [eapply H1|eapply H2]; eauto. Qed.
