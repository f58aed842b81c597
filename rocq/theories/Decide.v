(** * Derivability in the grammar of the standard is decidable; texts that the crate accepts and the standard does not *)
From Coq Require Import String Ascii NArith Arith Bool List Lia.
From Verif Require Import Nom Lex Ast Grammar Spec LexFacts NumFacts TokFacts RunFacts Shapes TermFacts Api ApiFacts LexProps
  Tok TokRun TokSound TokComplete TokMembers Shows Exact Lexer WebIDL Standard Relaxed.
Import ListNotations.
Open Scope list_scope.

(** ** [derive] finds every derivation *)
Lemma matchesb_complete res s t : matches res s t -> matchesb res s t = true.
Proof.
  destruct s, t as [[] x| | | | |]; cbn; try contradiction; auto.
  - intros ->. apply text_eqb_spec. auto.
  - intros ->. apply String.eqb_refl.
  - intros H. apply negb_true_iff. destruct (existsb (text_eqb x) (map str res)) eqn:E; auto. exfalso. apply H.
    apply existsb_exists in E as (y & Hy & E). apply text_eqb_spec in E. subst. auto.
Qed.
Lemma derive_complete g res n a i r : Der g res n a i r -> In r (derive g res n a i).
Proof.
  induction 1 as [n q|n s t a i q Hm _ IH|n x rhs a i m q Hi _ IH1 _ IH2].
  - destruct n; cbn; auto.
  - apply matchesb_complete in Hm. destruct n; destruct s; try (destruct t as [[] ?| | | | |]; discriminate); cbn [derive] in *; rewrite Hm; exact IH.
  - cbn [derive]. apply in_flat_map. exists rhs. split; auto. apply in_flat_map. exists m. split; auto.
Qed.

(** ** Depth of derivations without left recursion *)
Section Bound.
Context (g : grammar) (res : list string) (null : list string) (rank : string -> nat) (K : nat).
Definition is_null (s : sym) : bool := match s with Nt x => existsb (String.eqb x) null | _ => false end.
(** Nonterminals that can be at the front. *)
Fixpoint fronts (a : list sym) : list string :=
  match a with
  | Nt x :: a' => x :: (if is_null (Nt x) then fronts a' else [])
  | _ => []
  end.
Definition below (M : nat) (a : list sym) : bool := forallb (fun x => Nat.ltb (rank x) M) (fronts a).
Definition rules_fine : bool :=
  forallb (fun y => forallb (fun rhs => (negb (forallb is_null rhs) || is_null (Nt (fst y))) && below (rank (fst y)) rhs) (snd y)) g &&
  forallb (fun y => forallb (fun rhs => forallb (fun s => match s with Nt x => Nat.leb (rank x) K | _ => true end) rhs) (snd y)) g.
Definition ranked (a : list sym) : Prop := forall x, In (Nt x) a -> rank x <= K.
Context (Hok : rules_fine = true).
Lemma rule_fine x rhs : In rhs (rhs_of g x) -> (forallb is_null rhs = true -> is_null (Nt x) = true) /\ below (rank x) rhs = true /\ ranked rhs.
Proof.
  intros H. apply in_flat_map in H as (y & H1 & H2). apply filter_In in H1 as [H1 E]. apply String.eqb_eq in E. subst x.
  unfold rules_fine in Hok. apply andb_true_iff in Hok as [A B]. rewrite forallb_forall in A, B. apply A in H1 as A1. apply B in H1 as B1.
  rewrite forallb_forall in A1, B1. apply A1 in H2 as A2. apply B1 in H2 as B2. apply andb_true_iff in A2 as [A2 A3]. split; [|split; auto].
  - intros H. rewrite H in A2. exact A2.
  - intros x Hx. rewrite forallb_forall in B2. apply B2 in Hx. apply Nat.leb_le in Hx. exact Hx.
Qed.
Lemma Der_len n a i r : Der g res n a i r -> length r <= length i /\ (length r = length i -> forallb is_null a = true).
Proof.
  induction 1 as [n q|n s t a i q Hm _ IH|n x rhs a i m q Hi _ [I1 I2] _ [I3 I4]]; cbn [length]; [auto|split; [lia|lia]|]. split; [lia|].
  intros E. cbn [forallb]. rewrite I4 by lia. rewrite andb_true_r. apply (rule_fine x rhs Hi). apply I2. lia.
Qed.
Lemma below_top a : ranked a -> below (S K) a = true.
Proof.
  intros H. apply forallb_forall. intros x Hx. apply Nat.ltb_lt. apply le_n_S, H. clear H. induction a as [|[] a IH]; cbn [fronts] in Hx; try contradiction.
  destruct Hx as [<-|Hx]; [left; auto|]. destruct (is_null (Nt s)); [right; auto|destruct Hx].
Qed.
Lemma Der_bound n a i r : Der g res n a i r -> forall M N, M <= S K -> ranked a -> below M a = true -> length i * (S K) + M <= N -> Der g res N a i r.
Proof.
  induction 1 as [n q|n s t a i q Hm _ IH|n x rhs a i m q Hi H1 IH1 H2 IH2]; intros M N HM HR HB HN.
  - constructor.
  - constructor; auto. apply (IH (S K) N); [lia|intros x Hx; apply HR; right; auto|apply below_top; intros x Hx; apply HR; right; auto|]. cbn [length] in HN. lia.
  - destruct (rule_fine x rhs Hi) as (F1 & F2 & F3). apply andb_true_iff in HB as [B1 B2]. apply Nat.ltb_lt in B1. destruct N as [|N]; [lia|].
    assert (rank x <= K) by (apply HR; left; auto). econstructor; [exact Hi|apply (IH1 (rank x) N); auto; lia|].
    destruct (Der_len _ _ _ _ H1) as [L1 L2]. assert (HR' : ranked a) by (intros y Hy; apply HR; right; auto). destruct (Nat.eq_dec (length m) (length i)) as [E|E].
    + apply (IH2 M (S N)); auto; [|rewrite E; lia]. unfold below. cbn [fronts]. specialize (L2 E). apply F1 in L2. rewrite L2 in B2. exact B2.
    + apply (IH2 (S K) (S N)); auto; [apply below_top; auto|]. nia.
Qed.
End Bound.

(** The nonterminals that derive the empty text, and the length of the chains at the front of a rule. *)
Definition grow (g : grammar) (null : list string) : list string :=
  map fst (filter (fun y => existsb (fun rhs => forallb (is_null null) rhs) (snd y)) g).
Definition nullable (g : grammar) : list string := Nat.iter 5 (grow g) [].
Definition look (l : list (string * nat)) (x : string) : nat := match find (fun y => String.eqb (fst y) x) l with Some y => snd y | None => 0 end.
Definition raise (g : grammar) (null : list string) (l : list (string * nat)) : list (string * nat) :=
  map (fun y => (fst y, fold_right max 0 (flat_map (fun rhs => map (fun z => S (look l z)) (fronts null rhs)) (snd y)))) g.
Definition ranks (g : grammar) : list (string * nat) := Nat.iter 20 (raise g (nullable g)) [].

Definition webidl_nullable : list string := Eval vm_compute in nullable webidl.
Definition webidl_ranks : list (string * nat) := Eval vm_compute in ranks webidl.
Definition webidl_depth : nat := Eval vm_compute in fold_right max 0 (map snd webidl_ranks).
Lemma webidl_fine : rules_fine webidl webidl_nullable (look webidl_ranks) webidl_depth = true.
Proof. vm_compute. reflexivity. Qed.
Definition relaxed_nullable : list string := Eval vm_compute in nullable relaxed.
Definition relaxed_ranks : list (string * nat) := Eval vm_compute in ranks relaxed.
Definition relaxed_depth : nat := Eval vm_compute in fold_right max 0 (map snd relaxed_ranks).
Lemma relaxed_fine : rules_fine relaxed relaxed_nullable (look relaxed_ranks) relaxed_depth = true.
Proof. vm_compute. reflexivity. Qed.

Lemma accepts_iff g res null rank K : rules_fine g null rank K = true -> rank "Definitions"%string <= K ->
  forall ts, accepts g res (length ts * S K + S K) ts = true <-> exists n, Der g res n [Nt "Definitions"] ts [].
Proof.
  intros Hf Hr ts. split; [intros H; eexists; apply accepts_ok; exact H|]. intros [n H]. apply existsb_exists. exists []. split; auto. apply derive_complete.
  eapply (Der_bound _ _ _ _ _ Hf); [exact H|apply le_n| | |apply le_n].
  - intros x [E|[]]. injection E as <-. exact Hr.
  - apply below_top. intros x [E|[]]. injection E as <-. exact Hr.
Qed.
Definition standard (ts : list tok) : bool := accepts webidl webidl_keywords (length ts * S webidl_depth + S webidl_depth) ts.
Theorem standard_spec ts : standard ts = true <-> Standard ts.
Proof. apply (accepts_iff _ _ _ _ _ webidl_fine). vm_compute. repeat constructor. Qed.
Theorem Standard_dec ts : {Standard ts} + {~ Standard ts}.
Proof. destruct (standard ts) eqn:E; [left; apply standard_spec; exact E|right; intros H; apply standard_spec in H; congruence]. Qed.
Definition in_relaxed (ts : list tok) : bool := accepts relaxed [] (length ts * S relaxed_depth + S relaxed_depth) ts.
Theorem in_relaxed_spec ts : in_relaxed ts = true <-> Relaxed ts.
Proof. apply (accepts_iff _ _ _ _ _ relaxed_fine). vm_compute. repeat constructor. Qed.

(** ** Texts that the crate accepts and that are not in the standard: one for each relaxation *)
Definition more : list string :=
  ["interface interface {};"; "A implements B;"; "partial interface A { constructor(); };"; "callback interface A : B {};";
   "callback interface A { iterable<long>; };"; "interface A { const long? b = 1; };"; "interface A { const long b = null; };";
   "interface A { inherit readonly attribute long b; };"; "interface A { static getter long b(long c); };";
   "interface A { stringifier getter long b(long c); };"; "interface A { legacycaller long b(); };";
   "interface A { long b([C] [D] long e); };"; "dictionary A { required long b = 1; };"; "typedef () a;"; "typedef (long) a;";
   "typedef (Promise<long> or long) a;"; "typedef record<long, any> a;"; "typedef record<Promise<any>, any> a;";
   "[] interface A {};"; "[A=()] interface B {};"; "[A=""b""] interface B {};"]%string.
Definition is_parsed (s : string) : bool := match parse (str s) with Parsed _ => true | _ => false end.
Definition outside (s : string) : bool := match lex (str s) with (t :: ts, []) => negb (standard (t :: ts)) | _ => false end.
Lemma more_parsed : forallb is_parsed more = true.
Proof. vm_compute. reflexivity. Qed.
Lemma more_outside : forallb outside more = true.
Proof. vm_compute. reflexivity. Qed.
Theorem more_than_standard : Forall (fun s => exists ts defs, Toks (str s) ts /\ ~ Standard ts /\ parse (str s) = Parsed defs) more.
Proof.
  apply Forall_forall. intros s Hs. pose proof more_outside as H1. pose proof more_parsed as H2. rewrite forallb_forall in H1, H2.
  apply H1 in Hs as H3. apply H2 in Hs as H4. clear H1 H2. unfold outside in H3. destruct (lex (str s)) as [[|t ts] [|]] eqn:E; try discriminate.
  unfold is_parsed in H4. destruct (parse (str s)) as [defs| | |] eqn:E1; try discriminate. exists (t :: ts), defs. split; [|split; auto].
  - apply Toks_lex. split; auto. discriminate.
  - intros H. apply standard_spec in H. rewrite H in H3. discriminate.
Qed.
(** What is not in the relaxed grammar is not accepted. *)
Theorem not_relaxed raw ts : Toks raw ts -> ~ Relaxed ts -> forall defs, parse raw <> Parsed defs.
Proof.
  intros H1 H2 defs H. apply parse_Relaxed in H as (ts' & H3 & H4). apply Toks_lex in H1 as [H1 _]. apply Toks_lex in H3 as [H3 _].
  rewrite H1 in H3. injection H3 as <-. auto.
Qed.
Definition unrelaxed (s : string) : bool := match lex (str s) with (t :: ts, []) => negb (in_relaxed (t :: ts)) | _ => false end.
Lemma unrelaxed_ok s : unrelaxed s = true -> exists ts, Toks (str s) ts /\ ~ Relaxed ts.
Proof.
  unfold unrelaxed. intros H. destruct (lex (str s)) as [[|t ts] [|]] eqn:E; try discriminate. exists (t :: ts). split.
  - apply Toks_lex. split; auto. discriminate.
  - intros H1. apply in_relaxed_spec in H1. rewrite H1 in H. discriminate.
Qed.
