(** * Time is linear for a bounded nesting of brackets

    All loops of the grammar and all recursive calls are directly inside of brackets, and everything else reads a bounded number of groups
    (tokens, or brackets with all that is in them).  So the work on the items of a list adds up to the length of the list. *)
From Coq Require Import String Ascii NArith Arith Bool List Lia.
From Verif Require Import Nom Lex Ast Grammar Spec LexFacts NumFacts TokFacts RunFacts Shapes TermFacts Api ApiFacts LexProps
  Tok TokRun TokSound TokComplete TokMembers Shows Exact Print Cost Upper.
Import ListNotations.
Open Scope list_scope.

(** ** Groups *)
Inductive bracket : Set := Opening | Closing | Neither.
Definition bracket_of (t : tok) : bracket :=
  match t with
  | TPunct p => if existsb (String.eqb p) ["("; "["; "<"; "{"]%string then Opening
                else if existsb (String.eqb p) [")"; "]"; ">"; "}"]%string then Closing else Neither
  | _ => Neither
  end.
(** The number of tokens in the rest of the group that we are in, if [d] brackets of it are open, and in the next [k] groups; up to a bracket that
    was not opened. *)
Fixpoint span (d k : nat) (ts : list tok) : nat :=
  match ts with
  | [] => 0
  | t :: r =>
      match bracket_of t, d, k with
      | Opening, O, O | Neither, O, O | Closing, O, _ => 0
      | Opening, O, S k => S (span 1 k r)
      | Neither, O, S k => S (span 0 k r)
      | Opening, S _, _ => S (span (S d) k r)
      | Neither, S _, _ => S (span d k r)
      | Closing, S d, _ => S (span d k r)
      end
  end.
(** The number of tokens up to the bracket that closes one more than [d] brackets. *)
Fixpoint within (d : nat) (ts : list tok) : nat :=
  match ts with
  | [] => 0
  | t :: r =>
      match bracket_of t, d with
      | Opening, _ => S (within (S d) r)
      | Neither, _ => S (within d r)
      | Closing, O => 0
      | Closing, S d => S (within d r)
      end
  end.
(** [Walk d ts j d' r]: from [ts] with [d] open brackets to [r] with [d'] open brackets; [j] groups are begun in between. *)
Inductive Walk : nat -> list tok -> nat -> nat -> list tok -> Prop :=
| Wk_nil d ts : Walk d ts 0 d ts
| Wk_plain0 t ts j d' r : bracket_of t = Neither -> Walk 0 ts j d' r -> Walk 0 (t :: ts) (S j) d' r
| Wk_plainS t d ts j d' r : bracket_of t = Neither -> Walk (S d) ts j d' r -> Walk (S d) (t :: ts) j d' r
| Wk_open0 t ts j d' r : bracket_of t = Opening -> Walk 1 ts j d' r -> Walk 0 (t :: ts) (S j) d' r
| Wk_openS t d ts j d' r : bracket_of t = Opening -> Walk (S (S d)) ts j d' r -> Walk (S d) (t :: ts) j d' r
| Wk_close t d ts j d' r : bracket_of t = Closing -> Walk d ts j d' r -> Walk (S d) (t :: ts) j d' r.
Lemma Walk_trans d ts j d1 r1 : Walk d ts j d1 r1 -> forall j' d' r, Walk d1 r1 j' d' r -> Walk d ts (j + j') d' r.
Proof.
  induction 1; intros; cbn [Nat.add]; auto.
  - apply Wk_plain0; auto.
  - apply Wk_plainS; auto.
  - apply Wk_open0; auto.
  - apply Wk_openS; auto.
  - apply Wk_close; auto.
Qed.
Lemma Walk_lift e d ts j d' r : Walk d ts j d' r -> Walk (S e + d) ts 0 (S e + d') r.
Proof.
  induction 1; cbn [Nat.add] in *; repeat rewrite <- plus_n_Sm in *.
  - apply Wk_nil.
  - apply Wk_plainS; auto.
  - apply Wk_plainS; auto.
  - apply Wk_openS; auto. 
  - apply Wk_openS; auto. 
  - apply Wk_close; auto.
Qed.
Lemma Walk_span d ts j d' r : Walk d ts j d' r -> forall k, span d (j + k) ts + length r = length ts + span d' k r.
Proof.
  induction 1 as [d ts|t ts j d' r Ht _ IH|t d ts j d' r Ht _ IH|t ts j d' r Ht _ IH|t d ts j d' r Ht _ IH|t d ts j d' r Ht _ IH]; intros k;
    cbn [span length Nat.add]; [lia|rewrite Ht; specialize (IH k); cbn [Nat.add]; try lia..].
Qed.
Lemma Walk_within d ts j d' r : Walk d ts j d' r -> within d ts + length r = length ts + within d' r.
Proof.
  induction 1 as [d ts|t ts j d' r Ht _ IH|t d ts j d' r Ht _ IH|t ts j d' r Ht _ IH|t d ts j d' r Ht _ IH|t d ts j d' r Ht _ IH];
    cbn [within length]; [lia|rewrite Ht; lia..].
Qed.
Lemma Walk_length d ts j d' r : Walk d ts j d' r -> length r <= length ts.
Proof. induction 1; cbn [length]; lia. Qed.
Lemma Walk_begun d ts j d' r : Walk d ts j d' r -> d = 0 -> ts = r \/ 1 <= j.
Proof. destruct 1; intros; try discriminate; auto; right; lia. Qed.
Lemma span_mono d k k' ts : k <= k' -> span d k ts <= span d k' ts.
Proof.
  revert d k k'. induction ts as [|t ts IH]; intros d k k' H; cbn [span]; [lia|].
  destruct (bracket_of t), d, k, k'; try lia; apply le_n_S, IH; lia.
Qed.
Lemma span_within d k ts : span 0 k ts <= within d ts.
Proof.
  enough (H : forall e, span e k ts <= within (e + d) ts) by apply H.
  revert d k. induction ts as [|t ts IH]; intros d k e; cbn [span within]; [lia|].
  destruct (bracket_of t), e as [|e], k as [|k]; cbn [Nat.add]; try lia; try (destruct d; lia); apply le_n_S; exact (IH d _ _).
Qed.
Lemma within_span d k ts : within d ts <= span (S d) k ts.
Proof.
  revert d. induction ts as [|t ts IH]; intros d; cbn [span within]; [lia|].
  destruct (bracket_of t); [apply le_n_S, IH| |apply le_n_S, IH]. destruct d; [lia|apply le_n_S, IH].
Qed.
Lemma within_mono d ts : within 0 ts <= within d ts.
Proof.
  enough (H : forall e, within e ts <= within (e + d) ts) by apply (H 0).
  induction ts as [|t ts IH]; intros e; cbn [within]; [lia|].
  destruct (bracket_of t); [apply le_n_S, (IH (S e))| |apply le_n_S, IH]. destruct e; cbn [Nat.add]; [lia|apply le_n_S, IH].
Qed.
Lemma span_length d k ts : span d k ts <= length ts.
Proof.
  revert d k. induction ts as [|t ts IH]; intros d k; cbn [span length]; [lia|].
  destruct (bracket_of t), d, k; try lia; apply le_n_S, IH.
Qed.

(** ** Adding up over a list *)
Fixpoint behind (k : nat) (ts : list tok) : nat :=
  match k with O => 0 | S k => behind k ts + (within 0 ts - span 0 k ts) end.
Lemma behind_step k ts j r : Walk 0 ts j 0 r -> 1 <= j -> span 0 k ts + behind k r <= behind k ts.
Proof.
  intros HW Hj. pose proof (Walk_within _ _ _ _ _ HW) as Hw. induction k as [|k IH]; cbn [behind].
  - destruct ts as [|t ts]; cbn [span]; [lia|]. destruct (bracket_of t); lia.
  - pose proof (Walk_span _ _ _ _ _ HW k) as Hs. pose proof (span_mono 0 (S k) (j + k) ts ltac:(lia)).
    pose proof (span_mono 0 k (S k) ts ltac:(lia)).
    pose proof (span_within 0 k ts). pose proof (span_within 0 k r). pose proof (Walk_length _ _ _ _ _ HW). lia.
Qed.
Lemma behind_bound k ts : behind k ts <= k * within 0 ts.
Proof. induction k as [|k IH]; cbn [behind]; lia. Qed.
(** What one needs for a list with items of [k] groups. *)
Definition whole (k : nat) (ts : list tok) : nat := behind k ts + within 0 ts.
Lemma whole_step k ts j r : Walk 0 ts j 0 r -> ts <> r -> 1 + span 0 k ts + whole k r <= whole k ts.
Proof.
  intros HW Hr. pose proof (Walk_within _ _ _ _ _ HW) as Hw. destruct (Walk_begun _ _ _ _ _ HW eq_refl) as [E|Hj]; [contradiction|].
  pose proof (behind_step k _ _ _ HW Hj). unfold whole.
  assert (length r < length ts); [|lia]. pose proof (Walk_length _ _ _ _ _ HW) as Hl.
  destruct HW as [| | |? ? ? ? ? ? HW|? ? ? ? ? ? ? HW|]; try lia; cbn [length]; [|apply Walk_length in HW; lia..].
  match goal with H : Walk _ _ _ _ _ |- _ => apply Walk_length in H; lia end.
Qed.
Lemma whole_span k ts : span 0 k ts <= whole k ts.
Proof. unfold whole. pose proof (span_within 0 k ts). lia. Qed.
Lemma whole_bound k ts : 1 + whole k ts <= (k + 1) * (1 + within 0 ts).
Proof. unfold whole. pose proof (behind_bound k ts). lia. Qed.

(** ** The shape of the grammar

    [Span d p d' c k]: started with [d] open brackets, [p] ends with [d'] open brackets, has begun at most [k] groups and has at most [c] leaves;
    loops and recursive calls are inside of brackets. *)
Definition shift (t : term) (d d' k : nat) : Prop :=
  match bracket_of (term_tok t) with
  | Opening => d' = S d /\ (d = 0 -> 1 <= k)
  | Closing => d = S d'
  | Neither => d' = d /\ (d = 0 -> 1 <= k)
  end.
Section Kg.
Variable kg : nat.      (* a bound for the groups of the recursive parsers *)
Fixpoint Span (d : nat) {A} (p : pexp A) (d' c k : nat) {struct p} : Prop :=
  match p with
  | PTerm t => 1 <= c /\ match t with TmTerm t => shift t d d' k | _ => d' = d /\ (d = 0 -> 1 <= k) end
  | PRet _ => d' = d
  | PBind q f => exists d1 c1 k1 c2 k2, Span d q d1 c1 k1 /\ (forall a, Span d1 (f a) d' c2 k2) /\ c1 + c2 <= c /\ k1 + k2 <= k
  | POr q r => exists c1 c2, Span d q d' c1 k /\ Span d r d' c2 k /\ c1 + c2 <= c
  | PEnd => True
  | POpt q => Span d q d c k /\ d' = d
  | PMany0 q => exists c1 k1, Span 0 q 0 c1 k1 /\ c1 * (k1 + 1) <= c /\ d' = d /\ 1 <= d
  | PSepList s q | PSepNonEmpty s q => exists c1 k1 c2 k2, Span 0 s 0 c1 k1 /\ Span 0 q 0 c2 k2 /\ (c1 + 2 * c2) * (k1 + k2 + 1) <= c /\ d' = d /\ 1 <= d
  | PNT _ => 1 <= c /\ d' = d /\ (d = 0 -> kg <= k)
  end.
Lemma shift_mono t d d' k k' : shift t d d' k -> k <= k' -> shift t d d' k'.
Proof. unfold shift. destruct (bracket_of (term_tok t)); [intros [H H'] Hk; split; auto; intros; specialize (H' H0); lia|auto|intros [H H'] Hk; split; auto; intros; specialize (H' H0); lia]. Qed.
Lemma Span_mono : forall A (p : pexp A) d d' c k c' k', Span d p d' c k -> c <= c' -> k <= k' -> Span d p d' c' k'.
Proof.
  induction p as [A t|A a|A B p IHp f IHf|A p IHp q IHq|A|A p IHp|A p IHp|S A s IHs p IHp|S A s IHs p IHp|A x];
    cbn [Span]; intros d d' c k c' k' H Hc Hk; auto; try lia.
  - destruct H as [H1 H2]. split; [lia|]. destruct t; [eapply shift_mono; eauto|lia..].
  - destruct H as (d1 & c1 & k1 & c2 & k2 & H1 & H2 & H3 & H4). exists d1, c1, k1, c2, k2. repeat split; auto; lia.
  - destruct H as (c1 & c2 & H1 & H2 & H3). exists c1, c2. split; [eauto|split; [eauto|lia]].
  - destruct H as [H1 H2]. split; eauto.
  - destruct H as (c1 & k1 & H1 & H2 & H3). exists c1, k1. repeat split; auto; lia.
  - destruct H as (c1 & k1 & c2 & k2 & H1 & H2 & H3 & H4). exists c1, k1, c2, k2. repeat split; auto; lia.
  - destruct H as (c1 & k1 & c2 & k2 & H1 & H2 & H3 & H4). exists c1, k1, c2, k2. repeat split; auto; lia.
Qed.
End Kg.
(** Balanced expressions, wherever at least [m] brackets are open. *)
Definition Sp (m : nat) {A} (p : pexp A) : Prop := exists k, forall kg, exists c, forall d, m <= d -> Span kg d p d c k.
Definition USp (m : nat) {X A} (f : X -> pexp A) : Prop := exists k, forall kg, exists c, forall x d, m <= d -> Span kg d (f x) d c k.
Definition Item {A} (p : pexp A) : Prop := forall kg, exists c k, Span kg 0 p 0 c k.
Lemma USp_const m X A (p : pexp A) : Sp m p -> USp m (fun _ : X => p). Proof. intros (k & H). exists k. intros kg. destruct (H kg) as [c Hc]. exists c. auto. Qed.
Lemma Sp_up m A (p : pexp A) : Sp 0 p -> Sp m p. Proof. intros (k & H). exists k. intros kg. destruct (H kg) as [c Hc]. exists c. intros. apply Hc. lia. Qed.
Lemma Item_Sp A (p : pexp A) : Sp 0 p -> Item p. Proof. intros (k & H) kg. destruct (H kg) as [c Hc]. exists c, k. auto. Qed.
Lemma Item_nt A (x : nt A) : Item (PNT x). Proof. intros kg. exists 1, kg. cbn. auto. Qed.
Lemma USp_bind m X A B (p : X -> pexp A) (f : X -> A -> pexp B) : USp m p -> USp m (fun xa : X * A => f (fst xa) (snd xa)) -> USp m (fun x => PBind (p x) (f x)).
Proof.
  intros (k & H) (k' & H'). exists (k + k'). intros kg. destruct (H kg) as [c Hc], (H' kg) as [c' Hc']. exists (c + c').
  intros x d Hd. exists d, c, k, c', k'. split; auto. split; auto. intros a. apply (Hc' (x, a)); auto.
Qed.
Lemma USp_ret m X A (f : X -> A) : USp m (fun x => PRet (f x)). Proof. exists 0. exists 0. cbn; auto. Qed.
Lemma USp_cond m X A (b : X -> bool) (p : pexp A) : Sp m p -> USp m (fun x => PCond (b x) p).
Proof.
  intros (k & H). exists k. intros kg. destruct (H kg) as [c Hc]. exists c. intros x d Hd. destruct (b x); [|cbn; auto]. exists d, c, k, 0, 0. cbn. repeat split; auto; lia.
Qed.
Lemma Sp_bind m A B (p : pexp A) (f : A -> pexp B) : Sp m p -> USp m f -> Sp m (PBind p f).
Proof.
  intros (k & H) (k' & H'). exists (k + k'). intros kg. destruct (H kg) as [c Hc], (H' kg) as [c' Hc']. exists (c + c').
  intros d Hd. exists d, c, k, c', k'. auto.
Qed.
Lemma Sp_or m A (p q : pexp A) : Sp m p -> Sp m q -> Sp m (POr p q).
Proof.
  intros (k & H) (k' & H'). exists (k + k'). intros kg. destruct (H kg) as [c Hc], (H' kg) as [c' Hc']. exists (c + c').
  intros d Hd. exists c, c'. split; [|split; [|lia]]; eapply Span_mono; eauto; lia.
Qed.
Lemma Sp_term m A (t : terminal A) : match t with TmTerm t => bracket_of (term_tok t) = Neither | _ => True end -> Sp m (PTerm t).
Proof. intros H. exists 1. exists 1. intros d _. split; auto. destruct t; auto. unfold shift. rewrite H. auto. Qed.
Lemma Sp_T m t : bracket_of (term_tok t) = Neither -> Sp m (T_ t). Proof. apply (Sp_term m _ (TmTerm t)). Qed.
Lemma Sp_ret m A (a : A) : Sp m (PRet a). Proof. exists 0. exists 0. cbn. auto. Qed.
Lemma Sp_end m A : Sp m (@PEnd A). Proof. exists 0. exists 0. cbn. auto. Qed.
Lemma Sp_nt A (x : nt A) : Sp 1 (PNT x). Proof. exists 0. exists 1. cbn. intros d Hd. repeat split; lia. Qed.
Lemma Sp_opt m A (p : pexp A) : Sp m p -> Sp m (POpt p). Proof. intros (k & H). exists k. intros kg. destruct (H kg) as [c Hc]. exists c. cbn. auto. Qed.
Lemma Sp_option m A (p : pexp A) : Sp m p -> Sp m (e_Option p). Proof. apply Sp_opt. Qed.
Lemma Sp_many A (p : pexp A) : Item p -> Sp 1 (PMany0 p).
Proof. intros H. exists 0. intros kg. destruct (H kg) as (c & k & Hc). exists (c * (k + 1)). intros d Hd. exists c, k. auto. Qed.
Lemma Sp_vec A (p : pexp A) : Item p -> Sp 1 (e_Vec p). Proof. apply Sp_many. Qed.
Lemma Sp_seplist A S (s : pexp S) (p : pexp A) : Item s -> Item p -> Sp 1 (PSepList s p).
Proof.
  intros H H'. exists 0. intros kg. destruct (H kg) as (c & k & Hc), (H' kg) as (c' & k' & Hc').
  exists ((c + 2 * c') * (k + k' + 1)). intros d Hd. exists c, k, c', k'. auto 6.
Qed.
Lemma Sp_sepnonempty A S (s : pexp S) (p : pexp A) : Item s -> Item p -> Sp 1 (PSepNonEmpty s p).
Proof. apply Sp_seplist. Qed.
Lemma Sp_wrap A (p : pexp A) o c : bracket_of (term_tok o) = Opening -> bracket_of (term_tok c) = Closing -> Sp 1 p -> Sp 0 (T_ o ;;; b <- p ;; T_ c ;;; PRet b).
Proof.
  intros Ho Hc (k & H). exists (1 + k). intros kg. destruct (H kg) as [x Hx]. exists (1 + (x + 1)).
  intros d _. exists (S d), 1, 1, (x + 1), k. split; [cbn; unfold shift; rewrite Ho; auto|]. split; [|lia].
  intros _. exists (S d), x, k, 1, 0. split; [apply Hx; lia|]. split; [|lia]. intros b. exists d, 1, 0, 0, 0.
  split; [cbn; unfold shift; rewrite Hc; auto|]. split; [intros _; reflexivity|lia].
Qed.
Lemma Sp_paren A (p : pexp A) : Sp 1 p -> Sp 0 (e_Parenthesized p). Proof. apply Sp_wrap; reflexivity. Qed.
Lemma Sp_bracket A (p : pexp A) : Sp 1 p -> Sp 0 (e_Bracketed p). Proof. apply Sp_wrap; reflexivity. Qed.
Lemma Sp_brace A (p : pexp A) : Sp 1 p -> Sp 0 (e_Braced p). Proof. apply Sp_wrap; reflexivity. Qed.
Lemma Sp_generics A (p : pexp A) : Sp 1 p -> Sp 0 (e_Generics p). Proof. apply Sp_wrap; reflexivity. Qed.
Ltac sp1 := first
  [ assumption | solve [auto with sp] | simple apply Sp_T; reflexivity | simple apply Sp_term; exact Logic.I | simple apply Sp_ret | simple apply Sp_end | simple apply Sp_nt
  | simple apply Sp_paren | simple apply Sp_bracket | simple apply Sp_brace | simple apply Sp_generics
  | simple apply Sp_option | simple apply Sp_opt | simple apply Sp_many | apply Sp_vec | simple apply Sp_seplist | simple apply Sp_sepnonempty
  | simple apply Sp_or | simple apply Sp_bind | simple apply USp_cond | simple apply USp_const | simple apply USp_ret
  | match goal with
    | |- USp _ (fun x => PBind (@?p x) (fun a => @?f x a)) => apply (USp_bind _ _ _ _ p f); cbv beta
    | |- Item _ => first [simple apply Item_nt | simple apply Item_Sp]
    | |- Sp (S _) _ => simple apply Sp_up
    end ].
Ltac sp := unfold PMap; cbn [PAlt]; unfold PMap; repeat (sp1; cbv beta).
Lemma Sp_punctuated A (p : pexp A) t : bracket_of (term_tok t) = Neither -> Item p -> Sp 1 (e_Punctuated p t).
Proof. intros H H'. unfold e_Punctuated. apply Sp_bind; [|apply USp_ret]. apply Sp_seplist; [apply Item_Sp, Sp_T; auto|auto]. Qed.
Lemma Sp_triple m A B (p : pexp A) t (q : pexp B) : bracket_of (term_tok t) = Neither -> Sp m p -> Sp m q -> Sp m (e_triple p t q).
Proof. intros H Hp Hq. unfold e_triple. pose proof (Sp_T m t H). sp. Qed.
Lemma Sp_null m (A : Set) (p : pexp A) : Sp m p -> Sp m (e_MayBeNull p). Proof. intros H. unfold e_MayBeNull. sp. Qed.
Ltac sp ::= unfold PMap; cbn [PAlt]; unfold PMap;
  repeat (first [apply Sp_punctuated; [reflexivity|] | simple apply Sp_triple; [reflexivity| |] | simple apply Sp_null | sp1]; cbv beta).
Lemma Sp_e_Identifier : Sp 0 e_Identifier. Proof. unfold e_Identifier; sp. Qed.
Global Hint Resolve Sp_e_Identifier : sp.
Lemma Sp1_e_Identifier : Sp 1 e_Identifier. Proof. apply Sp_up, Sp_e_Identifier. Qed.
Global Hint Resolve Sp1_e_Identifier : sp.
Lemma Sp_e_Default : Sp 0 e_Default. Proof. unfold e_Default; sp. Qed.
Global Hint Resolve Sp_e_Default : sp.
Lemma Sp1_e_Default : Sp 1 e_Default. Proof. apply Sp_up, Sp_e_Default. Qed.
Global Hint Resolve Sp1_e_Default : sp.
Lemma Sp_e_LongLongType : Sp 0 e_LongLongType. Proof. unfold e_LongLongType; sp. Qed.
Global Hint Resolve Sp_e_LongLongType : sp.
Lemma Sp1_e_LongLongType : Sp 1 e_LongLongType. Proof. apply Sp_up, Sp_e_LongLongType. Qed.
Global Hint Resolve Sp1_e_LongLongType : sp.
Lemma Sp_e_LongType : Sp 0 e_LongType. Proof. unfold e_LongType; sp. Qed.
Global Hint Resolve Sp_e_LongType : sp.
Lemma Sp1_e_LongType : Sp 1 e_LongType. Proof. apply Sp_up, Sp_e_LongType. Qed.
Global Hint Resolve Sp1_e_LongType : sp.
Lemma Sp_e_ShortType : Sp 0 e_ShortType. Proof. unfold e_ShortType; sp. Qed.
Global Hint Resolve Sp_e_ShortType : sp.
Lemma Sp1_e_ShortType : Sp 1 e_ShortType. Proof. apply Sp_up, Sp_e_ShortType. Qed.
Global Hint Resolve Sp1_e_ShortType : sp.
Lemma Sp_e_IntegerType : Sp 0 e_IntegerType. Proof. unfold e_IntegerType; sp. Qed.
Global Hint Resolve Sp_e_IntegerType : sp.
Lemma Sp1_e_IntegerType : Sp 1 e_IntegerType. Proof. apply Sp_up, Sp_e_IntegerType. Qed.
Global Hint Resolve Sp1_e_IntegerType : sp.
Lemma Sp_e_FloatType : Sp 0 e_FloatType. Proof. unfold e_FloatType; sp. Qed.
Global Hint Resolve Sp_e_FloatType : sp.
Lemma Sp1_e_FloatType : Sp 1 e_FloatType. Proof. apply Sp_up, Sp_e_FloatType. Qed.
Global Hint Resolve Sp1_e_FloatType : sp.
Lemma Sp_e_DoubleType : Sp 0 e_DoubleType. Proof. unfold e_DoubleType; sp. Qed.
Global Hint Resolve Sp_e_DoubleType : sp.
Lemma Sp1_e_DoubleType : Sp 1 e_DoubleType. Proof. apply Sp_up, Sp_e_DoubleType. Qed.
Global Hint Resolve Sp1_e_DoubleType : sp.
Lemma Sp_e_FloatingPointType : Sp 0 e_FloatingPointType. Proof. unfold e_FloatingPointType; sp. Qed.
Global Hint Resolve Sp_e_FloatingPointType : sp.
Lemma Sp1_e_FloatingPointType : Sp 1 e_FloatingPointType. Proof. apply Sp_up, Sp_e_FloatingPointType. Qed.
Global Hint Resolve Sp1_e_FloatingPointType : sp.
Lemma Sp_e_ConstType : Sp 0 e_ConstType. Proof. unfold e_ConstType; sp. Qed.
Global Hint Resolve Sp_e_ConstType : sp.
Lemma Sp1_e_ConstType : Sp 1 e_ConstType. Proof. apply Sp_up, Sp_e_ConstType. Qed.
Global Hint Resolve Sp1_e_ConstType : sp.
Lemma Sp_e_SequenceType : Sp 0 e_SequenceType. Proof. unfold e_SequenceType; sp. Qed.
Global Hint Resolve Sp_e_SequenceType : sp.
Lemma Sp1_e_SequenceType : Sp 1 e_SequenceType. Proof. apply Sp_up, Sp_e_SequenceType. Qed.
Global Hint Resolve Sp1_e_SequenceType : sp.
Lemma Sp_e_FrozenArrayType : Sp 0 e_FrozenArrayType. Proof. unfold e_FrozenArrayType; sp. Qed.
Global Hint Resolve Sp_e_FrozenArrayType : sp.
Lemma Sp1_e_FrozenArrayType : Sp 1 e_FrozenArrayType. Proof. apply Sp_up, Sp_e_FrozenArrayType. Qed.
Global Hint Resolve Sp1_e_FrozenArrayType : sp.
Lemma Sp_e_PromiseType : Sp 0 e_PromiseType. Proof. unfold e_PromiseType; sp. Qed.
Global Hint Resolve Sp_e_PromiseType : sp.
Lemma Sp1_e_PromiseType : Sp 1 e_PromiseType. Proof. apply Sp_up, Sp_e_PromiseType. Qed.
Global Hint Resolve Sp1_e_PromiseType : sp.
Lemma Sp_e_RecordType : Sp 0 e_RecordType. Proof. unfold e_RecordType; sp. Qed.
Global Hint Resolve Sp_e_RecordType : sp.
Lemma Sp1_e_RecordType : Sp 1 e_RecordType. Proof. apply Sp_up, Sp_e_RecordType. Qed.
Global Hint Resolve Sp1_e_RecordType : sp.
Lemma Sp_e_UnionType : Sp 0 e_UnionType. Proof. unfold e_UnionType; sp. Qed.
Global Hint Resolve Sp_e_UnionType : sp.
Lemma Sp1_e_UnionType : Sp 1 e_UnionType. Proof. apply Sp_up, Sp_e_UnionType. Qed.
Global Hint Resolve Sp1_e_UnionType : sp.
Lemma Sp_e_NonAnyType : Sp 0 e_NonAnyType. Proof. unfold e_NonAnyType; sp. Qed.
Global Hint Resolve Sp_e_NonAnyType : sp.
Lemma Sp1_e_NonAnyType : Sp 1 e_NonAnyType. Proof. apply Sp_up, Sp_e_NonAnyType. Qed.
Global Hint Resolve Sp1_e_NonAnyType : sp.
Lemma Sp_e_SingleType : Sp 0 e_SingleType. Proof. unfold e_SingleType; sp. Qed.
Global Hint Resolve Sp_e_SingleType : sp.
Lemma Sp1_e_SingleType : Sp 1 e_SingleType. Proof. apply Sp_up, Sp_e_SingleType. Qed.
Global Hint Resolve Sp1_e_SingleType : sp.
Lemma Sp_e_Type : Sp 0 e_Type. Proof. unfold e_Type; sp. Qed.
Global Hint Resolve Sp_e_Type : sp.
Lemma Sp1_e_Type : Sp 1 e_Type. Proof. apply Sp_up, Sp_e_Type. Qed.
Global Hint Resolve Sp1_e_Type : sp.
Lemma Sp_e_RecordKeyType : Sp 0 e_RecordKeyType. Proof. unfold e_RecordKeyType; sp. Qed.
Global Hint Resolve Sp_e_RecordKeyType : sp.
Lemma Sp1_e_RecordKeyType : Sp 1 e_RecordKeyType. Proof. apply Sp_up, Sp_e_RecordKeyType. Qed.
Global Hint Resolve Sp1_e_RecordKeyType : sp.
Lemma Sp_e_ReturnType : Sp 0 e_ReturnType. Proof. unfold e_ReturnType; sp. Qed.
Global Hint Resolve Sp_e_ReturnType : sp.
Lemma Sp1_e_ReturnType : Sp 1 e_ReturnType. Proof. apply Sp_up, Sp_e_ReturnType. Qed.
Global Hint Resolve Sp1_e_ReturnType : sp.
Lemma Sp_e_ExtendedAttributeList : Sp 0 e_ExtendedAttributeList. Proof. unfold e_ExtendedAttributeList; sp. Qed.
Global Hint Resolve Sp_e_ExtendedAttributeList : sp.
Lemma Sp1_e_ExtendedAttributeList : Sp 1 e_ExtendedAttributeList. Proof. apply Sp_up, Sp_e_ExtendedAttributeList. Qed.
Global Hint Resolve Sp1_e_ExtendedAttributeList : sp.
Lemma Sp_e_attributes : Sp 0 e_attributes. Proof. unfold e_attributes; sp. Qed.
Global Hint Resolve Sp_e_attributes : sp.
Lemma Sp1_e_attributes : Sp 1 e_attributes. Proof. apply Sp_up, Sp_e_attributes. Qed.
Global Hint Resolve Sp1_e_attributes : sp.
Lemma Sp_e_AttributedType : Sp 0 e_AttributedType. Proof. unfold e_AttributedType; sp. Qed.
Global Hint Resolve Sp_e_AttributedType : sp.
Lemma Sp1_e_AttributedType : Sp 1 e_AttributedType. Proof. apply Sp_up, Sp_e_AttributedType. Qed.
Global Hint Resolve Sp1_e_AttributedType : sp.
Lemma Sp_e_AttributedNonAnyType : Sp 0 e_AttributedNonAnyType. Proof. unfold e_AttributedNonAnyType; sp. Qed.
Global Hint Resolve Sp_e_AttributedNonAnyType : sp.
Lemma Sp1_e_AttributedNonAnyType : Sp 1 e_AttributedNonAnyType. Proof. apply Sp_up, Sp_e_AttributedNonAnyType. Qed.
Global Hint Resolve Sp1_e_AttributedNonAnyType : sp.
Lemma Sp_e_UnionMemberType : Sp 0 e_UnionMemberType. Proof. unfold e_UnionMemberType; sp. Qed.
Global Hint Resolve Sp_e_UnionMemberType : sp.
Lemma Sp1_e_UnionMemberType : Sp 1 e_UnionMemberType. Proof. apply Sp_up, Sp_e_UnionMemberType. Qed.
Global Hint Resolve Sp1_e_UnionMemberType : sp.
Lemma Sp_e_SingleArgument : Sp 0 e_SingleArgument. Proof. unfold e_SingleArgument; sp. Qed.
Global Hint Resolve Sp_e_SingleArgument : sp.
Lemma Sp1_e_SingleArgument : Sp 1 e_SingleArgument. Proof. apply Sp_up, Sp_e_SingleArgument. Qed.
Global Hint Resolve Sp1_e_SingleArgument : sp.
Lemma Sp_e_VariadicArgument : Sp 0 e_VariadicArgument. Proof. unfold e_VariadicArgument; sp. Qed.
Global Hint Resolve Sp_e_VariadicArgument : sp.
Lemma Sp1_e_VariadicArgument : Sp 1 e_VariadicArgument. Proof. apply Sp_up, Sp_e_VariadicArgument. Qed.
Global Hint Resolve Sp1_e_VariadicArgument : sp.
Lemma Sp_e_Argument : Sp 0 e_Argument. Proof. unfold e_Argument; sp. Qed.
Global Hint Resolve Sp_e_Argument : sp.
Lemma Sp1_e_Argument : Sp 1 e_Argument. Proof. apply Sp_up, Sp_e_Argument. Qed.
Global Hint Resolve Sp1_e_Argument : sp.
Lemma Sp_e_ArgumentList : Sp 1 e_ArgumentList. Proof. unfold e_ArgumentList; sp. Qed.
Global Hint Resolve Sp_e_ArgumentList : sp.
Lemma Sp_e_ExtendedAttributeArgList : Sp 0 e_ExtendedAttributeArgList. Proof. unfold e_ExtendedAttributeArgList; sp. Qed.
Global Hint Resolve Sp_e_ExtendedAttributeArgList : sp.
Lemma Sp1_e_ExtendedAttributeArgList : Sp 1 e_ExtendedAttributeArgList. Proof. apply Sp_up, Sp_e_ExtendedAttributeArgList. Qed.
Global Hint Resolve Sp1_e_ExtendedAttributeArgList : sp.
Lemma Sp_e_ExtendedAttributeNamedArgList : Sp 0 e_ExtendedAttributeNamedArgList. Proof. unfold e_ExtendedAttributeNamedArgList; sp. Qed.
Global Hint Resolve Sp_e_ExtendedAttributeNamedArgList : sp.
Lemma Sp1_e_ExtendedAttributeNamedArgList : Sp 1 e_ExtendedAttributeNamedArgList. Proof. apply Sp_up, Sp_e_ExtendedAttributeNamedArgList. Qed.
Global Hint Resolve Sp1_e_ExtendedAttributeNamedArgList : sp.
Lemma Sp_e_IdentifierList : Sp 1 e_IdentifierList. Proof. unfold e_IdentifierList; sp. Qed.
Global Hint Resolve Sp_e_IdentifierList : sp.
Lemma Sp_e_ExtendedAttributeIdentList : Sp 0 e_ExtendedAttributeIdentList. Proof. unfold e_ExtendedAttributeIdentList; sp. Qed.
Global Hint Resolve Sp_e_ExtendedAttributeIdentList : sp.
Lemma Sp1_e_ExtendedAttributeIdentList : Sp 1 e_ExtendedAttributeIdentList. Proof. apply Sp_up, Sp_e_ExtendedAttributeIdentList. Qed.
Global Hint Resolve Sp1_e_ExtendedAttributeIdentList : sp.
Lemma Sp_e_IdentifierOrString : Sp 0 e_IdentifierOrString. Proof. unfold e_IdentifierOrString; sp. Qed.
Global Hint Resolve Sp_e_IdentifierOrString : sp.
Lemma Sp1_e_IdentifierOrString : Sp 1 e_IdentifierOrString. Proof. apply Sp_up, Sp_e_IdentifierOrString. Qed.
Global Hint Resolve Sp1_e_IdentifierOrString : sp.
Lemma Sp_e_ExtendedAttributeIdent : Sp 0 e_ExtendedAttributeIdent. Proof. unfold e_ExtendedAttributeIdent; sp. Qed.
Global Hint Resolve Sp_e_ExtendedAttributeIdent : sp.
Lemma Sp1_e_ExtendedAttributeIdent : Sp 1 e_ExtendedAttributeIdent. Proof. apply Sp_up, Sp_e_ExtendedAttributeIdent. Qed.
Global Hint Resolve Sp1_e_ExtendedAttributeIdent : sp.
Lemma Sp_e_ExtendedAttributeWildCard : Sp 0 e_ExtendedAttributeWildCard. Proof. unfold e_ExtendedAttributeWildCard; sp. Qed.
Global Hint Resolve Sp_e_ExtendedAttributeWildCard : sp.
Lemma Sp1_e_ExtendedAttributeWildCard : Sp 1 e_ExtendedAttributeWildCard. Proof. apply Sp_up, Sp_e_ExtendedAttributeWildCard. Qed.
Global Hint Resolve Sp1_e_ExtendedAttributeWildCard : sp.
Lemma Sp_e_ExtendedAttributeNoArgs : Sp 0 e_ExtendedAttributeNoArgs. Proof. unfold e_ExtendedAttributeNoArgs; sp. Qed.
Global Hint Resolve Sp_e_ExtendedAttributeNoArgs : sp.
Lemma Sp1_e_ExtendedAttributeNoArgs : Sp 1 e_ExtendedAttributeNoArgs. Proof. apply Sp_up, Sp_e_ExtendedAttributeNoArgs. Qed.
Global Hint Resolve Sp1_e_ExtendedAttributeNoArgs : sp.
Lemma Sp_e_ExtendedAttribute : Sp 0 e_ExtendedAttribute. Proof. unfold e_ExtendedAttribute; sp. Qed.
Global Hint Resolve Sp_e_ExtendedAttribute : sp.
Lemma Sp1_e_ExtendedAttribute : Sp 1 e_ExtendedAttribute. Proof. apply Sp_up, Sp_e_ExtendedAttribute. Qed.
Global Hint Resolve Sp1_e_ExtendedAttribute : sp.
Lemma Sp_e_Inheritance : Sp 0 e_Inheritance. Proof. unfold e_Inheritance; sp. Qed.
Global Hint Resolve Sp_e_Inheritance : sp.
Lemma Sp1_e_Inheritance : Sp 1 e_Inheritance. Proof. apply Sp_up, Sp_e_Inheritance. Qed.
Global Hint Resolve Sp1_e_Inheritance : sp.
Lemma Sp_e_ConstMember : Sp 0 e_ConstMember. Proof. unfold e_ConstMember; sp. Qed.
Global Hint Resolve Sp_e_ConstMember : sp.
Lemma Sp1_e_ConstMember : Sp 1 e_ConstMember. Proof. apply Sp_up, Sp_e_ConstMember. Qed.
Global Hint Resolve Sp1_e_ConstMember : sp.
Lemma Sp_e_StringifierOrInheritOrStatic : Sp 0 e_StringifierOrInheritOrStatic. Proof. unfold e_StringifierOrInheritOrStatic; sp. Qed.
Global Hint Resolve Sp_e_StringifierOrInheritOrStatic : sp.
Lemma Sp1_e_StringifierOrInheritOrStatic : Sp 1 e_StringifierOrInheritOrStatic. Proof. apply Sp_up, Sp_e_StringifierOrInheritOrStatic. Qed.
Global Hint Resolve Sp1_e_StringifierOrInheritOrStatic : sp.
Lemma Sp_e_StringifierOrStatic : Sp 0 e_StringifierOrStatic. Proof. unfold e_StringifierOrStatic; sp. Qed.
Global Hint Resolve Sp_e_StringifierOrStatic : sp.
Lemma Sp1_e_StringifierOrStatic : Sp 1 e_StringifierOrStatic. Proof. apply Sp_up, Sp_e_StringifierOrStatic. Qed.
Global Hint Resolve Sp1_e_StringifierOrStatic : sp.
Lemma Sp_e_Special : Sp 0 e_Special. Proof. unfold e_Special; sp. Qed.
Global Hint Resolve Sp_e_Special : sp.
Lemma Sp1_e_Special : Sp 1 e_Special. Proof. apply Sp_up, Sp_e_Special. Qed.
Global Hint Resolve Sp1_e_Special : sp.
Lemma Sp_e_AttributeInterfaceMember : Sp 0 e_AttributeInterfaceMember. Proof. unfold e_AttributeInterfaceMember; sp. Qed.
Global Hint Resolve Sp_e_AttributeInterfaceMember : sp.
Lemma Sp1_e_AttributeInterfaceMember : Sp 1 e_AttributeInterfaceMember. Proof. apply Sp_up, Sp_e_AttributeInterfaceMember. Qed.
Global Hint Resolve Sp1_e_AttributeInterfaceMember : sp.
Lemma Sp_e_ConstructorInterfaceMember : Sp 0 e_ConstructorInterfaceMember. Proof. unfold e_ConstructorInterfaceMember; sp. Qed.
Global Hint Resolve Sp_e_ConstructorInterfaceMember : sp.
Lemma Sp1_e_ConstructorInterfaceMember : Sp 1 e_ConstructorInterfaceMember. Proof. apply Sp_up, Sp_e_ConstructorInterfaceMember. Qed.
Global Hint Resolve Sp1_e_ConstructorInterfaceMember : sp.
Lemma Sp_e_OperationInterfaceMember : Sp 0 e_OperationInterfaceMember. Proof. unfold e_OperationInterfaceMember; sp. Qed.
Global Hint Resolve Sp_e_OperationInterfaceMember : sp.
Lemma Sp1_e_OperationInterfaceMember : Sp 1 e_OperationInterfaceMember. Proof. apply Sp_up, Sp_e_OperationInterfaceMember. Qed.
Global Hint Resolve Sp1_e_OperationInterfaceMember : sp.
Lemma Sp_e_SingleTypedIterable : Sp 0 e_SingleTypedIterable. Proof. unfold e_SingleTypedIterable; sp. Qed.
Global Hint Resolve Sp_e_SingleTypedIterable : sp.
Lemma Sp1_e_SingleTypedIterable : Sp 1 e_SingleTypedIterable. Proof. apply Sp_up, Sp_e_SingleTypedIterable. Qed.
Global Hint Resolve Sp1_e_SingleTypedIterable : sp.
Lemma Sp_e_DoubleTypedIterable : Sp 0 e_DoubleTypedIterable. Proof. unfold e_DoubleTypedIterable; sp. Qed.
Global Hint Resolve Sp_e_DoubleTypedIterable : sp.
Lemma Sp1_e_DoubleTypedIterable : Sp 1 e_DoubleTypedIterable. Proof. apply Sp_up, Sp_e_DoubleTypedIterable. Qed.
Global Hint Resolve Sp1_e_DoubleTypedIterable : sp.
Lemma Sp_e_IterableInterfaceMember : Sp 0 e_IterableInterfaceMember. Proof. unfold e_IterableInterfaceMember; sp. Qed.
Global Hint Resolve Sp_e_IterableInterfaceMember : sp.
Lemma Sp1_e_IterableInterfaceMember : Sp 1 e_IterableInterfaceMember. Proof. apply Sp_up, Sp_e_IterableInterfaceMember. Qed.
Global Hint Resolve Sp1_e_IterableInterfaceMember : sp.
Lemma Sp_e_SingleTypedAsyncIterable : Sp 0 e_SingleTypedAsyncIterable. Proof. unfold e_SingleTypedAsyncIterable; sp. Qed.
Global Hint Resolve Sp_e_SingleTypedAsyncIterable : sp.
Lemma Sp1_e_SingleTypedAsyncIterable : Sp 1 e_SingleTypedAsyncIterable. Proof. apply Sp_up, Sp_e_SingleTypedAsyncIterable. Qed.
Global Hint Resolve Sp1_e_SingleTypedAsyncIterable : sp.
Lemma Sp_e_DoubleTypedAsyncIterable : Sp 0 e_DoubleTypedAsyncIterable. Proof. unfold e_DoubleTypedAsyncIterable; sp. Qed.
Global Hint Resolve Sp_e_DoubleTypedAsyncIterable : sp.
Lemma Sp1_e_DoubleTypedAsyncIterable : Sp 1 e_DoubleTypedAsyncIterable. Proof. apply Sp_up, Sp_e_DoubleTypedAsyncIterable. Qed.
Global Hint Resolve Sp1_e_DoubleTypedAsyncIterable : sp.
Lemma Sp_e_AsyncIterableInterfaceMember : Sp 0 e_AsyncIterableInterfaceMember. Proof. unfold e_AsyncIterableInterfaceMember; sp. Qed.
Global Hint Resolve Sp_e_AsyncIterableInterfaceMember : sp.
Lemma Sp1_e_AsyncIterableInterfaceMember : Sp 1 e_AsyncIterableInterfaceMember. Proof. apply Sp_up, Sp_e_AsyncIterableInterfaceMember. Qed.
Global Hint Resolve Sp1_e_AsyncIterableInterfaceMember : sp.
Lemma Sp_e_MaplikeInterfaceMember : Sp 0 e_MaplikeInterfaceMember. Proof. unfold e_MaplikeInterfaceMember; sp. Qed.
Global Hint Resolve Sp_e_MaplikeInterfaceMember : sp.
Lemma Sp1_e_MaplikeInterfaceMember : Sp 1 e_MaplikeInterfaceMember. Proof. apply Sp_up, Sp_e_MaplikeInterfaceMember. Qed.
Global Hint Resolve Sp1_e_MaplikeInterfaceMember : sp.
Lemma Sp_e_SetlikeInterfaceMember : Sp 0 e_SetlikeInterfaceMember. Proof. unfold e_SetlikeInterfaceMember; sp. Qed.
Global Hint Resolve Sp_e_SetlikeInterfaceMember : sp.
Lemma Sp1_e_SetlikeInterfaceMember : Sp 1 e_SetlikeInterfaceMember. Proof. apply Sp_up, Sp_e_SetlikeInterfaceMember. Qed.
Global Hint Resolve Sp1_e_SetlikeInterfaceMember : sp.
Lemma Sp_e_StringifierMember : Sp 0 e_StringifierMember. Proof. unfold e_StringifierMember; sp. Qed.
Global Hint Resolve Sp_e_StringifierMember : sp.
Lemma Sp1_e_StringifierMember : Sp 1 e_StringifierMember. Proof. apply Sp_up, Sp_e_StringifierMember. Qed.
Global Hint Resolve Sp1_e_StringifierMember : sp.
Lemma Sp_e_InterfaceMember : Sp 0 e_InterfaceMember. Proof. unfold e_InterfaceMember; sp. Qed.
Global Hint Resolve Sp_e_InterfaceMember : sp.
Lemma Sp1_e_InterfaceMember : Sp 1 e_InterfaceMember. Proof. apply Sp_up, Sp_e_InterfaceMember. Qed.
Global Hint Resolve Sp1_e_InterfaceMember : sp.
Lemma Sp_e_InterfaceMembers : Sp 1 e_InterfaceMembers. Proof. unfold e_InterfaceMembers; sp. Qed.
Global Hint Resolve Sp_e_InterfaceMembers : sp.
Lemma Sp_e_OperationMixinMember : Sp 0 e_OperationMixinMember. Proof. unfold e_OperationMixinMember; sp. Qed.
Global Hint Resolve Sp_e_OperationMixinMember : sp.
Lemma Sp1_e_OperationMixinMember : Sp 1 e_OperationMixinMember. Proof. apply Sp_up, Sp_e_OperationMixinMember. Qed.
Global Hint Resolve Sp1_e_OperationMixinMember : sp.
Lemma Sp_e_AttributeMixinMember : Sp 0 e_AttributeMixinMember. Proof. unfold e_AttributeMixinMember; sp. Qed.
Global Hint Resolve Sp_e_AttributeMixinMember : sp.
Lemma Sp1_e_AttributeMixinMember : Sp 1 e_AttributeMixinMember. Proof. apply Sp_up, Sp_e_AttributeMixinMember. Qed.
Global Hint Resolve Sp1_e_AttributeMixinMember : sp.
Lemma Sp_e_MixinMember : Sp 0 e_MixinMember. Proof. unfold e_MixinMember; sp. Qed.
Global Hint Resolve Sp_e_MixinMember : sp.
Lemma Sp1_e_MixinMember : Sp 1 e_MixinMember. Proof. apply Sp_up, Sp_e_MixinMember. Qed.
Global Hint Resolve Sp1_e_MixinMember : sp.
Lemma Sp_e_MixinMembers : Sp 1 e_MixinMembers. Proof. unfold e_MixinMembers; sp. Qed.
Global Hint Resolve Sp_e_MixinMembers : sp.
Lemma Sp_e_ConstNamespaceMember : Sp 0 e_ConstNamespaceMember. Proof. unfold e_ConstNamespaceMember; sp. Qed.
Global Hint Resolve Sp_e_ConstNamespaceMember : sp.
Lemma Sp1_e_ConstNamespaceMember : Sp 1 e_ConstNamespaceMember. Proof. apply Sp_up, Sp_e_ConstNamespaceMember. Qed.
Global Hint Resolve Sp1_e_ConstNamespaceMember : sp.
Lemma Sp_e_OperationNamespaceMember : Sp 0 e_OperationNamespaceMember. Proof. unfold e_OperationNamespaceMember; sp. Qed.
Global Hint Resolve Sp_e_OperationNamespaceMember : sp.
Lemma Sp1_e_OperationNamespaceMember : Sp 1 e_OperationNamespaceMember. Proof. apply Sp_up, Sp_e_OperationNamespaceMember. Qed.
Global Hint Resolve Sp1_e_OperationNamespaceMember : sp.
Lemma Sp_e_AttributeNamespaceMember : Sp 0 e_AttributeNamespaceMember. Proof. unfold e_AttributeNamespaceMember; sp. Qed.
Global Hint Resolve Sp_e_AttributeNamespaceMember : sp.
Lemma Sp1_e_AttributeNamespaceMember : Sp 1 e_AttributeNamespaceMember. Proof. apply Sp_up, Sp_e_AttributeNamespaceMember. Qed.
Global Hint Resolve Sp1_e_AttributeNamespaceMember : sp.
Lemma Sp_e_NamespaceMember : Sp 0 e_NamespaceMember. Proof. unfold e_NamespaceMember; sp. Qed.
Global Hint Resolve Sp_e_NamespaceMember : sp.
Lemma Sp1_e_NamespaceMember : Sp 1 e_NamespaceMember. Proof. apply Sp_up, Sp_e_NamespaceMember. Qed.
Global Hint Resolve Sp1_e_NamespaceMember : sp.
Lemma Sp_e_NamespaceMembers : Sp 1 e_NamespaceMembers. Proof. unfold e_NamespaceMembers; sp. Qed.
Global Hint Resolve Sp_e_NamespaceMembers : sp.
Lemma Sp_e_DictionaryMember : Sp 0 e_DictionaryMember. Proof. unfold e_DictionaryMember; sp. Qed.
Global Hint Resolve Sp_e_DictionaryMember : sp.
Lemma Sp1_e_DictionaryMember : Sp 1 e_DictionaryMember. Proof. apply Sp_up, Sp_e_DictionaryMember. Qed.
Global Hint Resolve Sp1_e_DictionaryMember : sp.
Lemma Sp_e_DictionaryMembers : Sp 1 e_DictionaryMembers. Proof. unfold e_DictionaryMembers; sp. Qed.
Global Hint Resolve Sp_e_DictionaryMembers : sp.
Lemma Sp_e_CallbackDefinition : Sp 0 e_CallbackDefinition. Proof. unfold e_CallbackDefinition; sp. Qed.
Global Hint Resolve Sp_e_CallbackDefinition : sp.
Lemma Sp1_e_CallbackDefinition : Sp 1 e_CallbackDefinition. Proof. apply Sp_up, Sp_e_CallbackDefinition. Qed.
Global Hint Resolve Sp1_e_CallbackDefinition : sp.
Lemma Sp_e_CallbackInterfaceDefinition : Sp 0 e_CallbackInterfaceDefinition. Proof. unfold e_CallbackInterfaceDefinition; sp. Qed.
Global Hint Resolve Sp_e_CallbackInterfaceDefinition : sp.
Lemma Sp1_e_CallbackInterfaceDefinition : Sp 1 e_CallbackInterfaceDefinition. Proof. apply Sp_up, Sp_e_CallbackInterfaceDefinition. Qed.
Global Hint Resolve Sp1_e_CallbackInterfaceDefinition : sp.
Lemma Sp_e_InterfaceDefinition : Sp 0 e_InterfaceDefinition. Proof. unfold e_InterfaceDefinition; sp. Qed.
Global Hint Resolve Sp_e_InterfaceDefinition : sp.
Lemma Sp1_e_InterfaceDefinition : Sp 1 e_InterfaceDefinition. Proof. apply Sp_up, Sp_e_InterfaceDefinition. Qed.
Global Hint Resolve Sp1_e_InterfaceDefinition : sp.
Lemma Sp_e_InterfaceMixinDefinition : Sp 0 e_InterfaceMixinDefinition. Proof. unfold e_InterfaceMixinDefinition; sp. Qed.
Global Hint Resolve Sp_e_InterfaceMixinDefinition : sp.
Lemma Sp1_e_InterfaceMixinDefinition : Sp 1 e_InterfaceMixinDefinition. Proof. apply Sp_up, Sp_e_InterfaceMixinDefinition. Qed.
Global Hint Resolve Sp1_e_InterfaceMixinDefinition : sp.
Lemma Sp_e_NamespaceDefinition : Sp 0 e_NamespaceDefinition. Proof. unfold e_NamespaceDefinition; sp. Qed.
Global Hint Resolve Sp_e_NamespaceDefinition : sp.
Lemma Sp1_e_NamespaceDefinition : Sp 1 e_NamespaceDefinition. Proof. apply Sp_up, Sp_e_NamespaceDefinition. Qed.
Global Hint Resolve Sp1_e_NamespaceDefinition : sp.
Lemma Sp_e_DictionaryDefinition : Sp 0 e_DictionaryDefinition. Proof. unfold e_DictionaryDefinition; sp. Qed.
Global Hint Resolve Sp_e_DictionaryDefinition : sp.
Lemma Sp1_e_DictionaryDefinition : Sp 1 e_DictionaryDefinition. Proof. apply Sp_up, Sp_e_DictionaryDefinition. Qed.
Global Hint Resolve Sp1_e_DictionaryDefinition : sp.
Lemma Sp_e_PartialInterfaceDefinition : Sp 0 e_PartialInterfaceDefinition. Proof. unfold e_PartialInterfaceDefinition; sp. Qed.
Global Hint Resolve Sp_e_PartialInterfaceDefinition : sp.
Lemma Sp1_e_PartialInterfaceDefinition : Sp 1 e_PartialInterfaceDefinition. Proof. apply Sp_up, Sp_e_PartialInterfaceDefinition. Qed.
Global Hint Resolve Sp1_e_PartialInterfaceDefinition : sp.
Lemma Sp_e_PartialInterfaceMixinDefinition : Sp 0 e_PartialInterfaceMixinDefinition. Proof. unfold e_PartialInterfaceMixinDefinition; sp. Qed.
Global Hint Resolve Sp_e_PartialInterfaceMixinDefinition : sp.
Lemma Sp1_e_PartialInterfaceMixinDefinition : Sp 1 e_PartialInterfaceMixinDefinition. Proof. apply Sp_up, Sp_e_PartialInterfaceMixinDefinition. Qed.
Global Hint Resolve Sp1_e_PartialInterfaceMixinDefinition : sp.
Lemma Sp_e_PartialDictionaryDefinition : Sp 0 e_PartialDictionaryDefinition. Proof. unfold e_PartialDictionaryDefinition; sp. Qed.
Global Hint Resolve Sp_e_PartialDictionaryDefinition : sp.
Lemma Sp1_e_PartialDictionaryDefinition : Sp 1 e_PartialDictionaryDefinition. Proof. apply Sp_up, Sp_e_PartialDictionaryDefinition. Qed.
Global Hint Resolve Sp1_e_PartialDictionaryDefinition : sp.
Lemma Sp_e_PartialNamespaceDefinition : Sp 0 e_PartialNamespaceDefinition. Proof. unfold e_PartialNamespaceDefinition; sp. Qed.
Global Hint Resolve Sp_e_PartialNamespaceDefinition : sp.
Lemma Sp1_e_PartialNamespaceDefinition : Sp 1 e_PartialNamespaceDefinition. Proof. apply Sp_up, Sp_e_PartialNamespaceDefinition. Qed.
Global Hint Resolve Sp1_e_PartialNamespaceDefinition : sp.
Lemma Sp_e_EnumValueList : Sp 1 e_EnumValueList. Proof. unfold e_EnumValueList, e_PunctuatedNonEmpty; sp. Qed.
Global Hint Resolve Sp_e_EnumValueList : sp.
Lemma Sp_e_EnumDefinition : Sp 0 e_EnumDefinition. Proof. unfold e_EnumDefinition; sp. Qed.
Global Hint Resolve Sp_e_EnumDefinition : sp.
Lemma Sp1_e_EnumDefinition : Sp 1 e_EnumDefinition. Proof. apply Sp_up, Sp_e_EnumDefinition. Qed.
Global Hint Resolve Sp1_e_EnumDefinition : sp.
Lemma Sp_e_TypedefDefinition : Sp 0 e_TypedefDefinition. Proof. unfold e_TypedefDefinition; sp. Qed.
Global Hint Resolve Sp_e_TypedefDefinition : sp.
Lemma Sp1_e_TypedefDefinition : Sp 1 e_TypedefDefinition. Proof. apply Sp_up, Sp_e_TypedefDefinition. Qed.
Global Hint Resolve Sp1_e_TypedefDefinition : sp.
Lemma Sp_e_IncludesStatementDefinition : Sp 0 e_IncludesStatementDefinition. Proof. unfold e_IncludesStatementDefinition; sp. Qed.
Global Hint Resolve Sp_e_IncludesStatementDefinition : sp.
Lemma Sp1_e_IncludesStatementDefinition : Sp 1 e_IncludesStatementDefinition. Proof. apply Sp_up, Sp_e_IncludesStatementDefinition. Qed.
Global Hint Resolve Sp1_e_IncludesStatementDefinition : sp.
Lemma Sp_e_ImplementsDefinition : Sp 0 e_ImplementsDefinition. Proof. unfold e_ImplementsDefinition; sp. Qed.
Global Hint Resolve Sp_e_ImplementsDefinition : sp.
Lemma Sp1_e_ImplementsDefinition : Sp 1 e_ImplementsDefinition. Proof. apply Sp_up, Sp_e_ImplementsDefinition. Qed.
Global Hint Resolve Sp1_e_ImplementsDefinition : sp.
Lemma Sp_e_Definition : Sp 0 e_Definition. Proof. unfold e_Definition; sp. Qed.
Global Hint Resolve Sp_e_Definition : sp.
Lemma Sp1_e_Definition : Sp 1 e_Definition. Proof. apply Sp_up, Sp_e_Definition. Qed.
Global Hint Resolve Sp1_e_Definition : sp.
Lemma Sp_e_Definitions : Sp 1 e_Definitions. Proof. unfold e_Definitions; sp. Qed.
Global Hint Resolve Sp_e_Definitions : sp.
Lemma grammar_Span : exists kg cg, forall A (x : nt A), Span kg 0 (grammar x) 0 cg kg.
Proof.
  destruct Sp_e_Type as (k1 & H1), Sp_e_ReturnType as (k2 & H2), Sp_e_RecordKeyType as (k3 & H3), Sp_e_UnionMemberType as (k4 & H4), Sp_e_ExtendedAttribute as (k5 & H5).
  set (kg := k1 + k2 + k3 + k4 + k5). exists kg. destruct (H1 kg) as (c1 & E1), (H2 kg) as (c2 & E2), (H3 kg) as (c3 & E3), (H4 kg) as (c4 & E4), (H5 kg) as (c5 & E5).
  exists (c1 + c2 + c3 + c4 + c5). intros A x. destruct x; cbn [grammar]; (eapply Span_mono; [first [apply E1|apply E2|apply E3|apply E4|apply E5]|..]); subst kg; lia.
Qed.

(** ** A run is a walk *)
Lemma Walk_plain t d ts : bracket_of t = Neither -> exists j, (d = 0 -> j <= 1) /\ (d <> 0 -> j = 0) /\ Walk d (t :: ts) j d ts.
Proof.
  intros H. destruct d as [|d]; [exists 1|exists 0]; (split; [lia|split; [lia|]]); constructor; auto; constructor.
Qed.
Lemma const_Walk ts v r : const_of ts = Some (v, r) -> exists t, ts = t :: r /\ bracket_of t = Neither.
Proof.
  destruct ts as [|[[] n|p| |l|s|s] ts]; cbn [const_of]; try discriminate; try (intros [= _ <-]; eexists; split; reflexivity).
  destruct (bool_of n); [intros [= _ <-]; eexists; split; reflexivity|]. destruct (float_of n); [intros [= _ <-]; eexists; split; reflexivity|].
  destruct (text_eqb n (str "null")); [intros [= _ <-]; eexists; split; reflexivity|discriminate].
Qed.
Lemma default_Walk ts v r d : default_of ts = Some (v, r) -> exists j, j <= 1 /\ (d <> 0 -> j = 0) /\ Walk d ts j d r.
Proof.
  assert (HP : forall t, ts = t :: r -> bracket_of t = Neither -> exists j, j <= 1 /\ (d <> 0 -> j = 0) /\ Walk d ts j d r).
  { intros t -> Ht. destruct (Walk_plain t d r Ht) as (j & H1 & H2 & H3). exists j. split; [destruct d; [auto|specialize (H2 ltac:(discriminate)); lia]|auto]. }
  assert (HC : match const_of ts with
    | Some (ConstValue_Boolean b, r) => Some (DefaultValue_Boolean b, r)
    | Some (ConstValue_Float f, r) => Some (DefaultValue_Float f, r)
    | Some (ConstValue_Integer l, r) => Some (DefaultValue_Integer l, r)
    | Some (ConstValue_Null, r) => Some (DefaultValue_Null, r)
    | None => None end = Some (v, r) -> exists j, j <= 1 /\ (d <> 0 -> j = 0) /\ Walk d ts j d r).
  { destruct (const_of ts) as [[[] r']|] eqn:E; try discriminate; intros [= _ <-]; apply const_Walk in E as (t & Et & Hb); eapply HP; eauto. }
  assert (HB : forall o c, bracket_of o = Opening -> bracket_of c = Closing -> exists j, j <= 1 /\ (d <> 0 -> j = 0) /\ Walk d (o :: c :: r) j d r).
  { intros o c Ho Hc. destruct d as [|d]; [exists 1|exists 0]; (split; [lia|split; [lia|]]).
    - apply Wk_open0; auto. apply Wk_close; auto. constructor.
    - apply Wk_openS; auto. apply Wk_close; auto. constructor. }
  destruct ts as [|[e n|p| |l|s|s] ts]; unfold default_of; auto.
  - destruct ts as [|[e n|q| |l|s|s] ts]; auto.
    destruct (String.eqb p "[" && String.eqb q "]") eqn:E1.
    { apply andb_true_iff in E1 as [->%String.eqb_eq ->%String.eqb_eq]. intros [= _ <-]. apply HB; reflexivity. }
    destruct (String.eqb p "{" && String.eqb q "}") eqn:E2; [|discriminate].
    apply andb_true_iff in E2 as [->%String.eqb_eq ->%String.eqb_eq]. intros [= _ <-]. apply HB; reflexivity.
  - intros [= _ <-]. eapply HP; reflexivity.
Qed.
Lemma toks_same_neq i r : toks_same r i = false -> i <> r.
Proof. intros H ->. unfold toks_same in H. rewrite Nat.eqb_refl in H. discriminate. Qed.

Section Linear.
  Variables kg cg : nat.
  Hypothesis HG : forall A (x : nt A), Span kg 0 (grammar x) 0 cg kg.
  Notation Span := (Span kg).

  Lemma many0_Walk A (p : parser (list tok) A) n : (forall i r a, p i = Ok r a -> exists j, Walk 0 i j 0 r) ->
    forall i acc r l, many0_loop toks_same n p i acc = Ok r l -> exists j, Walk 0 i j 0 r.
  Proof.
    intros Hp. induction n as [|n IH]; intros i acc r l; cbn; [discriminate|].
    destruct (p i) as [r' a|[]|] eqn:E; try discriminate.
    - destruct (toks_same r' i); [discriminate|]. intros H. apply IH in H as [j' H]. apply Hp in E as [j E]. exists (j + j'). eapply Walk_trans; eauto.
    - intros [= <- <-]. exists 0. constructor.
  Qed.
  Lemma sep_Walk A S (s : parser (list tok) S) (p : parser (list tok) A) n : (forall i r a, p i = Ok r a -> exists j, Walk 0 i j 0 r) ->
    (forall i r a, s i = Ok r a -> exists j, Walk 0 i j 0 r) ->
    forall i acc r l, sep_loop toks_same n s p i acc = Ok r l -> exists j, Walk 0 i j 0 r.
  Proof.
    intros Hp Hs. induction n as [|n IH]; intros i acc r l; cbn; [discriminate|].
    destruct (s i) as [r' a|[]|] eqn:E; try discriminate.
    - destruct (toks_same r' i); [discriminate|].
      destruct (p r') as [r'' b|[]|] eqn:E'; try discriminate.
      + destruct (toks_same r'' i); [discriminate|]. intros H. apply IH in H as [j H]. apply Hp in E' as [j1 E']. apply Hs in E as [j2 E].
        exists (j2 + (j1 + j)). eapply Walk_trans; eauto. eapply Walk_trans; eauto.
      + intros [= <- <-]. exists 0. constructor.
    - intros [= <- <-]. exists 0. constructor.
  Qed.
  Lemma Walk_in d i j r : 1 <= d -> Walk 0 i j 0 r -> Walk d i 0 d r.
  Proof. intros Hd H. destruct d as [|d]; [lia|]. apply (Walk_lift d) in H. rewrite Nat.add_0_r in H. exact H. Qed.
  Theorem Span_run n : forall A (p : pexp A) d d' c k, Span d p d' c k -> forall i r a, krun n A p i = Ok r a -> exists j, j <= k /\ Walk d i j d' r.
  Proof.
    induction n as [n IHn] using lt_wf_ind.
    induction p as [A t|A a|A B p IHp f IHf|A p IHp q IHq|A|A p IHp|A p IHp|S A s IHs p IHp|S A s IHs p IHp|A x];
      cbn [Linear.Span]; intros d d' c k HS i r v; runs.
    - destruct HS as [_ HS]. destruct t; cbn [tok_sem].
      + destruct i as [|x i]; [discriminate|]. destruct (tok_eqb x (term_tok t)) eqn:E; [|discriminate]. apply tok_eqb_eq in E. subst x. intros [= <- _].
        unfold shift in HS. destruct (bracket_of (term_tok t)) eqn:Eb.
        * destruct HS as [-> Hk]. destruct d as [|d]; [exists 1; split; [auto|]; apply Wk_open0; auto; constructor|exists 0; split; [lia|]; apply Wk_openS; auto; constructor].
        * subst d. exists 0. split; [lia|]. apply Wk_close; auto. constructor.
        * destruct HS as [-> Hk]. destruct (Walk_plain _ d i Eb) as (j & H1 & H2 & H3). exists j. split; auto. destruct d; [specialize (Hk eq_refl); lia|lia].
      + destruct HS as [-> Hk]. destruct i as [|[] i]; try discriminate. intros [= <- _].
        edestruct (fun t H => Walk_plain t d i H) as (j & H1 & H2 & H3); [|exists j; split; [|exact H3]]; [reflexivity|]. destruct d; [specialize (Hk eq_refl); lia|lia].
      + destruct HS as [-> Hk]. destruct i as [|[] i]; try discriminate. intros [= <- _].
        edestruct (fun t H => Walk_plain t d i H) as (j & H1 & H2 & H3); [|exists j; split; [|exact H3]]; [reflexivity|]. destruct d; [specialize (Hk eq_refl); lia|lia].
      + destruct HS as [-> Hk]. destruct (default_of i) as [[w r']|] eqn:E; [|discriminate]. intros [= <- _].
        apply (default_Walk _ _ _ d) in E as (j & H1 & H2 & H3). exists j. split; auto. destruct d; [specialize (Hk eq_refl); lia|lia].
      + destruct HS as [-> Hk]. destruct (const_of i) as [[w r']|] eqn:E; [|discriminate]. intros [= <- _]. apply const_Walk in E as (t & -> & Hb).
        destruct (Walk_plain _ d r' Hb) as (j & H1 & H2 & H3). exists j. split; auto. destruct d; [specialize (Hk eq_refl); lia|lia].
    - cbn. intros [= <- _]. subst. exists 0. split; [lia|constructor].
    - destruct HS as (d1 & c1 & k1 & c2 & k2 & H1 & H2 & _ & Hk). unfold bind. destruct (krun n A p i) as [r' a|[]|] eqn:E; try discriminate.
      intros H. apply (IHp _ _ _ _ H1) in E as (j & Hj & E). apply (IHf _ _ _ _ _ (H2 a)) in H as (j' & Hj' & H). exists (j + j'). split; [lia|]. eapply Walk_trans; eauto.
    - destruct HS as (c1 & c2 & H1 & H2 & _). unfold alt_or. destruct (krun n A p i) as [r' a|[]|] eqn:E; try discriminate.
      + intros [= <- <-]. eapply IHp; eauto.
      + intros H. eapply IHq; eauto.
    - discriminate.
    - destruct HS as (H1 & ->). unfold opt. destruct (krun n A p i) as [r' a|[]|] eqn:E; try discriminate; intros [= <- <-].
      + eapply IHp; eauto.
      + exists 0. split; [lia|constructor].
    - destruct HS as (c1 & k1 & H1 & _ & -> & Hd). unfold many0. intros H. apply many0_Walk in H as [j H].
      + exists 0. split; [lia|]. eapply Walk_in; eauto.
      + intros i' r' a E. apply (IHp _ _ _ _ H1) in E as (j & _ & E). eauto.
    - destruct HS as (c1 & k1 & c2 & k2 & H1 & H2 & _ & -> & Hd). unfold separated_list. destruct (krun n A p i) as [r' a|[]|] eqn:E; try discriminate.
      + destruct (toks_same r' i); [discriminate|]. intros H. apply sep_Walk in H as [j H].
        * apply (IHp _ _ _ _ H2) in E as (j' & _ & E). exists 0. split; [lia|]. eapply Walk_in; eauto. eapply Walk_trans; eauto.
        * intros i2 r2 a2 E2. apply (IHp _ _ _ _ H2) in E2 as (j2 & _ & E2). eauto.
        * intros i2 r2 a2 E2. apply (IHs _ _ _ _ H1) in E2 as (j2 & _ & E2). eauto.
      + intros [= <- <-]. exists 0. split; [lia|constructor].
    - destruct HS as (c1 & k1 & c2 & k2 & H1 & H2 & _ & -> & Hd). unfold separated_nonempty_list. destruct (krun n A p i) as [r' a|[]|] eqn:E; try discriminate.
      destruct (toks_same r' i); [discriminate|]. intros H. apply sep_Walk in H as [j H].
      * apply (IHp _ _ _ _ H2) in E as (j' & _ & E). exists 0. split; [lia|]. eapply Walk_in; eauto. eapply Walk_trans; eauto.
      * intros i2 r2 a2 E2. apply (IHp _ _ _ _ H2) in E2 as (j2 & _ & E2). eauto.
      * intros i2 r2 a2 E2. apply (IHs _ _ _ _ H1) in E2 as (j2 & _ & E2). eauto.
    - destruct HS as (_ & -> & Hk). destruct n as [|n]; [discriminate|]. rewrite run_nt_S. intros H.
      apply (IHn n (Nat.lt_succ_diag_r n) _ _ _ _ _ _ (HG A x)) in H as (j & Hj & H). destruct d as [|d].
      + exists j. split; auto. specialize (Hk eq_refl). lia.
      + exists 0. split; [lia|]. eapply Walk_in; eauto. lia.
  Qed.

  (** ** The number of steps *)
  Let B := 1 + cg.
  Notation ks := (meter toks_same tok_sem Nat.add 1).
  Notation kd := (meter toks_same tok_sem Nat.max 0).

  Lemma lin_many A (p : parser (list tok) A) (c cd : list tok -> nat) X k D n :
    (forall i, cd i <= D -> c i <= X * (1 + span 0 k i)) -> (forall i r a, p i = Ok r a -> exists j, Walk 0 i j 0 r) ->
    forall i, m_many0_loop toks_same Nat.max n p cd i <= D -> m_many0_loop toks_same Nat.add n p c i <= X * (1 + whole k i).
  Proof.
    intros Hc Hp. induction n as [|n IH]; intros i; cbn [m_many0_loop]; [lia|]. intros Hd. pose proof (Hc i ltac:(lia)) as H.
    pose proof (whole_span k i) as Hw. assert (X * (1 + span 0 k i) <= X * (1 + whole k i)) by (apply Nat.mul_le_mono_l; lia).
    destruct (p i) as [r v|e|] eqn:E; try lia. destruct (toks_same r i) eqn:Es; [lia|].
    specialize (IH r ltac:(lia)). apply Hp in E as [j E]. pose proof (whole_step k _ _ _ E (toks_same_neq _ _ Es)).
    assert (X * (1 + span 0 k i + (1 + whole k r)) <= X * (1 + whole k i)) by (apply Nat.mul_le_mono_l; lia). lia.
  Qed.
  Lemma lin_sep A S (s : parser (list tok) S) (p : parser (list tok) A) (c cs cd csd : list tok -> nat) X Y k1 k2 D n :
    (forall i, cd i <= D -> c i <= X * (1 + span 0 k2 i)) -> (forall i, csd i <= D -> cs i <= Y * (1 + span 0 k1 i)) ->
    (forall i r a, p i = Ok r a -> exists j, Walk 0 i j 0 r) -> (forall i r a, s i = Ok r a -> exists j, j <= k1 /\ Walk 0 i j 0 r) ->
    forall i, m_sep_loop toks_same Nat.max n s p csd cd i <= D ->
    m_sep_loop toks_same Nat.add n s p cs c i <= (X + Y) * (1 + whole (k1 + k2) i).
  Proof.
    intros Hc Hcs Hp Hs. induction n as [|n IH]; intros i; cbn [m_sep_loop]; [lia|]. intros Hd. pose proof (Hcs i ltac:(lia)) as H.
    set (k := k1 + k2) in *. pose proof (whole_span k i) as Hw. pose proof (span_mono 0 k1 k i ltac:(unfold k; lia)).
    assert (Y * (1 + span 0 k1 i) <= Y * (1 + span 0 k i)) by (apply Nat.mul_le_mono_l; lia).
    assert ((X + Y) * (1 + span 0 k i) <= (X + Y) * (1 + whole k i)) by (apply Nat.mul_le_mono_l; lia).
    destruct (s i) as [r v|e|] eqn:E; try lia. destruct (toks_same r i) eqn:Es; [lia|].
    apply Hs in E as (j & Hj & E). pose proof (Hc r ltac:(lia)) as H'.
    assert (Hsp : span 0 k2 r <= span 0 k i).
    { pose proof (Walk_span _ _ _ _ _ E k2). pose proof (Walk_length _ _ _ _ _ E). pose proof (span_mono 0 (j + k2) k i ltac:(unfold k; lia)). lia. }
    assert (X * (1 + span 0 k2 r) <= X * (1 + span 0 k i)) by (apply Nat.mul_le_mono_l; lia).
    destruct (p r) as [r2 v2|e|] eqn:E2; try lia. destruct (toks_same r2 i) eqn:Es2; [lia|]. specialize (IH r2 ltac:(lia)).
    apply Hp in E2 as [j2 E2]. pose proof (whole_step k _ _ _ (Walk_trans _ _ _ _ _ E _ _ _ E2) (toks_same_neq _ _ Es2)).
    assert ((X + Y) * (1 + span 0 k i + (1 + whole k r2)) <= (X + Y) * (1 + whole k i)) by (apply Nat.mul_le_mono_l; lia). lia.
  Qed.
  Lemma lin_separated A S (s : parser (list tok) S) (p : parser (list tok) A) (c cs cd csd : list tok -> nat) X Y k1 k2 D n :
    (forall i, cd i <= D -> c i <= X * (1 + span 0 k2 i)) -> (forall i, csd i <= D -> cs i <= Y * (1 + span 0 k1 i)) ->
    (forall i r a, p i = Ok r a -> exists j, Walk 0 i j 0 r) -> (forall i r a, s i = Ok r a -> exists j, j <= k1 /\ Walk 0 i j 0 r) ->
    forall i, m_separated toks_same Nat.max n s p csd cd i <= D ->
    m_separated toks_same Nat.add n s p cs c i <= (2 * X + Y) * (1 + whole (k1 + k2) i).
  Proof.
    intros Hc Hcs Hp Hs i. unfold m_separated. intros Hd. pose proof (Hc i ltac:(lia)) as H.
    set (k := k1 + k2) in *. pose proof (whole_span k i) as Hw. pose proof (span_mono 0 k2 k i ltac:(unfold k; lia)).
    assert (X * (1 + span 0 k2 i) <= X * (1 + whole k i)) by (apply Nat.mul_le_mono_l; lia).
    destruct (p i) as [r v|e|] eqn:E; try lia. destruct (toks_same r i) eqn:Es; [lia|]. apply Hp in E as [j E].
    pose proof (lin_sep A S s p c cs cd csd X Y k1 k2 D n Hc Hcs Hp Hs r ltac:(lia)) as HL. fold k in HL.
    pose proof (whole_step k _ _ _ E (toks_same_neq _ _ Es)).
    assert ((X + Y) * (1 + whole k r) <= (X + Y) * (1 + whole k i)) by (apply Nat.mul_le_mono_l; lia). lia.
  Qed.

  Theorem lin_bound n : forall A (p : pexp A) d d' c k, Span d p d' c k ->
    forall i D, kd n A p i <= D -> ks n A p i <= c * B ^ D * (1 + span d k i).
  Proof.
    assert (HB : forall D, 1 <= B ^ D) by (intros D; assert (B ^ D <> 0) by (apply Nat.pow_nonzero; unfold B; lia); lia).
    induction n as [n IHn] using lt_wf_ind.
    induction p as [A t|A a|A B' p IHp f IHf|A p IHp q IHq|A|A p IHp|A p IHp|S' A s IHs p IHp|S' A s IHs p IHp|A x];
      cbn [Linear.Span]; intros d d' c k HS i D; meters; intros Hd; try lia.
    - destruct HS as [Hc _]. assert (1 * 1 * 1 <= c * B ^ D * (1 + span d k i)) by (repeat apply Nat.mul_le_mono; auto; lia). lia.
    - destruct HS as (d1 & c1 & k1 & c2 & k2 & H1 & H2 & Hc & Hk). pose proof (IHp _ _ _ _ H1 i D ltac:(lia)) as Hp.
      set (X := B ^ D) in *. pose proof (span_mono d k1 k i ltac:(lia)).
      assert (c1 * X * (1 + span d k1 i) <= c1 * X * (1 + span d k i)) by (apply Nat.mul_le_mono_l; lia).
      assert ((c1 + c2) * (X * (1 + span d k i)) <= c * (X * (1 + span d k i))) by (apply Nat.mul_le_mono_r; auto).
      destruct (krun n A p i) as [r a|e|] eqn:E; try lia.
      pose proof (IHf a _ _ _ _ (H2 a) r D ltac:(lia)) as Hf. apply (Span_run _ _ _ _ _ _ _ H1) in E as (j & Hj & E).
      assert (Hsp : span d1 k2 r <= span d k i).
      { pose proof (Walk_span _ _ _ _ _ E k2). pose proof (Walk_length _ _ _ _ _ E). pose proof (span_mono d (j + k2) k i ltac:(lia)). lia. }
      fold X in Hf. assert (c2 * X * (1 + span d1 k2 r) <= c2 * X * (1 + span d k i)) by (apply Nat.mul_le_mono_l; lia). lia.
    - destruct HS as (c1 & c2 & H1 & H2 & Hc). pose proof (IHp _ _ _ _ H1 i D ltac:(lia)) as Hp. set (X := B ^ D) in *.
      assert ((c1 + c2) * (X * (1 + span d k i)) <= c * (X * (1 + span d k i))) by (apply Nat.mul_le_mono_r; auto).
      destruct (krun n A p i) as [r a|[]|]; try lia. pose proof (IHq _ _ _ _ H2 i D ltac:(lia)) as Hq. fold X in Hq. lia.
    - destruct HS as [H1 ->]. eapply IHp; eauto.
    - destruct HS as (c1 & k1 & H1 & Hc & -> & Hd1).
      pose proof (lin_many A (krun n A p) (ks n A p) (kd n A p) (c1 * B ^ D) k1 D n (fun j => IHp _ _ _ _ H1 j D)
        (fun i' r a E => match Span_run n A p _ _ _ _ H1 i' r a E with ex_intro _ j (conj _ HW) => ex_intro _ j HW end) i Hd) as H.
      set (X := B ^ D) in *. pose proof (whole_bound k1 i) as Hw. destruct d as [|d]; [lia|].
      pose proof (within_mono d i). pose proof (within_span d k i).
      assert (c1 * X * (1 + whole k1 i) <= c1 * X * ((k1 + 1) * (1 + span (S d) k i))) by (apply Nat.mul_le_mono_l; eapply Nat.le_trans; [exact Hw|apply Nat.mul_le_mono_l; lia]).
      assert (c1 * (k1 + 1) * (X * (1 + span (S d) k i)) <= c * (X * (1 + span (S d) k i))) by (apply Nat.mul_le_mono_r; auto). lia.
    - destruct HS as (c1 & k1 & c2 & k2 & H1 & H2 & Hc & -> & Hd1).
      pose proof (lin_separated A S' (krun n S' s) (krun n A p) (ks n A p) (ks n S' s) (kd n A p) (kd n S' s) (c2 * B ^ D) (c1 * B ^ D) k1 k2 D n
        (fun j => IHp _ _ _ _ H2 j D) (fun j => IHs _ _ _ _ H1 j D)
        (fun i' r a E => match Span_run n A p _ _ _ _ H2 i' r a E with ex_intro _ j (conj _ HW) => ex_intro _ j HW end)
        (fun i' r a E => Span_run n S' s _ _ _ _ H1 i' r a E) i Hd) as H.
      set (X := B ^ D) in *. pose proof (whole_bound (k1 + k2) i) as Hw. destruct d as [|d]; [lia|].
      pose proof (within_mono d i). pose proof (within_span d k i).
      assert ((2 * (c2 * X) + c1 * X) * (1 + whole (k1 + k2) i) <= (2 * (c2 * X) + c1 * X) * ((k1 + k2 + 1) * (1 + span (S d) k i)))
        by (apply Nat.mul_le_mono_l; eapply Nat.le_trans; [exact Hw|apply Nat.mul_le_mono_l; lia]).
      assert ((c1 + 2 * c2) * (k1 + k2 + 1) * (X * (1 + span (S d) k i)) <= c * (X * (1 + span (S d) k i))) by (apply Nat.mul_le_mono_r; auto). lia.
    - destruct HS as (c1 & k1 & c2 & k2 & H1 & H2 & Hc & -> & Hd1).
      pose proof (lin_separated A S' (krun n S' s) (krun n A p) (ks n A p) (ks n S' s) (kd n A p) (kd n S' s) (c2 * B ^ D) (c1 * B ^ D) k1 k2 D n
        (fun j => IHp _ _ _ _ H2 j D) (fun j => IHs _ _ _ _ H1 j D)
        (fun i' r a E => match Span_run n A p _ _ _ _ H2 i' r a E with ex_intro _ j (conj _ HW) => ex_intro _ j HW end)
        (fun i' r a E => Span_run n S' s _ _ _ _ H1 i' r a E) i Hd) as H.
      set (X := B ^ D) in *. pose proof (whole_bound (k1 + k2) i) as Hw. destruct d as [|d]; [lia|].
      pose proof (within_mono d i). pose proof (within_span d k i).
      assert ((2 * (c2 * X) + c1 * X) * (1 + whole (k1 + k2) i) <= (2 * (c2 * X) + c1 * X) * ((k1 + k2 + 1) * (1 + span (S d) k i)))
        by (apply Nat.mul_le_mono_l; eapply Nat.le_trans; [exact Hw|apply Nat.mul_le_mono_l; lia]).
      assert ((c1 + 2 * c2) * (k1 + k2 + 1) * (X * (1 + span (S d) k i)) <= c * (X * (1 + span (S d) k i))) by (apply Nat.mul_le_mono_r; auto). lia.
    - destruct HS as (Hc & -> & Hk). destruct n as [|n]; [rewrite meter_nt_O; lia|]. rewrite meter_nt_S in *. destruct D as [|D]; [lia|].
      pose proof (IHn n (Nat.lt_succ_diag_r n) _ (grammar x) _ _ _ _ (HG _ x) i D ltac:(lia)) as H.
      assert (Hsp : span 0 kg i <= span d k i).
      { destruct d as [|d]; [apply span_mono; auto|]. etransitivity; [apply (span_within d)|apply within_span]. }
      specialize (HB D). cbn [Nat.pow]. set (X := B ^ D) in *.
      assert (cg * X * (1 + span 0 kg i) <= cg * X * (1 + span d k i)) by (apply Nat.mul_le_mono_l; lia).
      assert (1 * 1 <= X * (1 + span d k i)) by (apply Nat.mul_le_mono; lia).
      assert (1 * (B * (X * (1 + span d k i))) <= c * (B * (X * (1 + span d k i)))) by (apply Nat.mul_le_mono_r; auto).
      assert (B * (X * (1 + span d k i)) = X * (1 + span d k i) + cg * X * (1 + span d k i)) by (unfold B; lia). lia.
  Qed.
End Linear.

(** Linear in the number of tokens, exponential only in the depth of recursion. *)
Theorem parse_steps_depth : exists c, forall raw ts r, Rd r raw ts -> Stuck r -> parse_steps raw <= c ^ S (parse_depth raw) * S (length ts).
Proof.
  destruct grammar_Span as (kg & cg & HG), Sp_e_Definitions as (k & HS). destruct (HS kg) as [c Hc]. exists (1 + c + cg). intros raw ts r HR Hr.
  unfold parse_steps, steps_as, parse_depth, depth_as. rewrite !(meter_Sim _ _ r Hr _ _ _ P_Defs raw ts HR).
  set (n := S (length raw)). set (D := meter toks_same tok_sem Nat.max 0 n _ e_Definitions ts).
  pose proof (lin_bound kg cg HG n _ e_Definitions 1 1 c k (Hc 1 (le_n 1)) ts D (le_n D)) as H.
  etransitivity; [exact H|]. cbn [Nat.pow]. apply Nat.mul_le_mono; [|pose proof (span_length 1 k ts); lia].
  apply Nat.mul_le_mono; [lia|]. apply Nat.pow_le_mono_l. lia.
Qed.
Lemma Lay_tokens b ts r : Lay b ts r -> length ts + length r <= length b.
Proof.
  induction 1; [auto|]. pose proof (spell_nonempty _ H). rewrite !app_length. cbn [length]. destruct (spell t); [congruence|]. cbn. lia.
Qed.
Lemma Rd_tokens r raw ts : Rd r raw ts -> length ts + length r <= length raw.
Proof. intros (w & b & -> & _ & H). apply Lay_tokens in H. rewrite app_length. lia. Qed.
(** Exponential only in the nesting of brackets, in any text. *)
Theorem parse_steps_nesting : exists c, forall raw ts r, Rd r raw ts -> Stuck r -> parse_steps raw <= c ^ S (height ts) * S (length ts).
Proof.
  destruct parse_steps_depth as [c H]. exists (S c). intros raw ts r HR Hr. etransitivity; [apply (H raw ts r HR Hr)|]. apply Nat.mul_le_mono_r.
  etransitivity; [apply (Nat.pow_le_mono_l c (S c)); lia|]. apply Nat.pow_le_mono_r; [lia|]. apply le_n_S. eapply parse_depth_height; eauto.
Qed.
Theorem parse_steps_linear : forall h, exists c, forall raw ts r, Rd r raw ts -> Stuck r -> height ts <= h -> parse_steps raw <= c * S (length raw).
Proof.
  intros h. destruct parse_steps_nesting as [c H]. exists (S c ^ S h). intros raw ts r HR Hr Hh. etransitivity; [apply (H raw ts r HR Hr)|].
  apply Nat.mul_le_mono; [|apply Rd_tokens in HR; lia].
  etransitivity; [apply (Nat.pow_le_mono_l c (S c)); lia|]. apply Nat.pow_le_mono_r; lia.
Qed.
