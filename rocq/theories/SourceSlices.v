(** * Every string that is returned is a slice of the input

    Running the source with an input: all strings in the result, the rest and the position of an error are pieces of the input.
    The strings of the tree have the type [&'a str] (src/common.rs:83, src/literal.rs:8, 18, 29, 43, 97), with ['a] the lifetime of the input
    ([fn parse(input: &'a str)], src/lib.rs:93, src/macros.rs:45, 195, 333, 361, 389); the bodies are read from the source by Crate.v and run by Interp.v. *)
From Coq Require Import String Ascii NArith Arith Bool List Lia.
From Verif Require Import Nom Lex Source Rust Crate Interp SourceHygiene.
Import ListNotations.
Open Scope string_scope.
Open Scope list_scope.

(** ** Slices *)
Definition Slice (s x : text) : Prop := exists a b, s = a ++ x ++ b.
Lemma Slice_refl s : Slice s s. Proof. exists [], []. rewrite app_nil_r. reflexivity. Qed.
Lemma Slice_trans s x y : Slice s x -> Slice x y -> Slice s y.
Proof. intros (a & b & ->) (c & d & ->). exists (a ++ c), (d ++ b). rewrite <- !app_assoc. reflexivity. Qed.
Lemma Slice_l x y : Slice (x ++ y) x. Proof. exists [], y. reflexivity. Qed.
Lemma Slice_r x y : Slice (x ++ y) y. Proof. exists x, []. rewrite app_nil_r. reflexivity. Qed.

(** All strings in a value are slices of [s]. *)
Fixpoint From (s : text) (v : value) {struct v} : Prop :=
  let fix all l := match l with [] => True | v :: l' => From s v /\ all l' end in
  match v with
  | VStr x | VBytes x => Slice s x
  | VTup l | VVec l | VCon _ l => all l
  | VData _ _ fs => (fix fields l := match l with [] => True | f :: l' => From s (snd f) /\ fields l' end) fs
  | VNom (Error i _) | VNom (Failure i _) => Slice s i
  | _ => True
  end.
Definition Froms (s : text) (l : list value) : Prop := Forall (From s) l.
Lemma From_list s l : (fix all l := match l with [] => True | v :: l' => From s v /\ all l' end) l <-> Froms s l.
Proof. unfold Froms. induction l as [|v l IH]; [split; [constructor|auto]|]. split; [intros [A B]; constructor; [exact A|apply IH; exact B]|intros H; inversion H; split; [assumption|apply IH; assumption]]. Qed.
Lemma From_fields s l : (fix fields (l : list (string * value)) := match l with [] => True | f :: l' => From s (snd f) /\ fields l' end) l <-> Forall (fun f => From s (snd f)) l.
Proof. induction l as [|v l IH]; [split; [constructor|auto]|]. split; [intros [A B]; constructor; [exact A|apply IH; exact B]|intros H; inversion H; split; [assumption|apply IH; assumption]]. Qed.
Lemma From_tup s l : From s (VTup l) <-> Froms s l. Proof. apply From_list. Qed.
Lemma From_vec s l : From s (VVec l) <-> Froms s l. Proof. apply From_list. Qed.
Lemma From_con s c l : From s (VCon c l) <-> Froms s l. Proof. apply From_list. Qed.
Lemma From_data s t v l : From s (VData t v l) <-> Forall (fun f => From s (snd f)) l. Proof. apply From_fields. Qed.
Definition FromEnv (s : text) (e : env) : Prop := Forall (fun b => match snd b with Some v => From s v | None => True end) e.
(** Results of parsers. *)
Definition FromRes {A} (s : text) (Q : A -> Prop) (r : res text A) : Prop :=
  match r with Ok i a => Slice s i /\ Q a | Err (Error i _) | Err (Failure i _) => Slice s i | _ => True end.
Definition FromAns (s : text) (a : ans) : Prop := match a with Val v => From s v | _ => True end.

Lemma lift_from s r : FromRes s (From s) r -> FromAns s (lift r).
Proof. destruct r as [i v|[]|]; cbn; tauto. Qed.
Lemma unlift_from s a : FromAns s a -> FromRes s (From s) (unlift a).
Proof.
  destruct a as [v| |]; try exact (fun _ => Logic.I). destruct v as [| | | | |c l| | | |]; try exact (fun _ => Logic.I). intros H. cbn [FromAns] in H. apply From_con in H. unfold unlift.
  destruct (String.eqb c "Ok").
  - destruct l as [|[| | |[|[r| | | | | | | | |] [|v [|? ?]]]| | | | | |] [|? ?]]; try exact Logic.I. inversion H as [|? ? K _]; subst. apply From_tup in K. inversion K as [|? ? K1 K2]; subst. inversion K2; subst. split; assumption.
  - destruct l as [|[| | | | | | | |e|] [|? ?]]; try exact Logic.I. inversion H as [|? ? K _]; subst. destruct e; exact K.
Qed.
Lemma vtext_from s r : FromRes s (Slice s) r -> FromRes s (From s) (vtext r).
Proof. destruct r as [i v|[]|]; cbn; tauto. Qed.
Lemma vchar_from s r : FromRes s (fun _ => True) r -> FromRes s (From s) (vchar r).
Proof. destruct r as [i v|[]|]; cbn; tauto. Qed.
Lemma vec_from s r : FromRes s (Froms s) r -> FromRes s (From s) (vec r).
Proof. destruct r as [i v|[]|]; cbn [FromRes vec]; try tauto. intros [A B]. split; [exact A|apply From_vec; exact B]. Qed.
Lemma vopt_from s r : FromRes s (fun o => match o with Some v => From s v | None => True end) r -> FromRes s (From s) (vopt r).
Proof. destruct r as [i [v|]|[]|]; cbn; tauto. Qed.

(** ** The parsers of nom *)
Lemma strip_prefix_app t : forall i r, strip_prefix t i = Some r -> i = t ++ r.
Proof. induction t as [|x t IH]; intros [|y i] r H; cbn in H; try discriminate; try (injection H as <-; reflexivity). destruct (N.eqb_spec x y); [|discriminate]. subst. apply IH in H. subst. reflexivity. Qed.
Lemma span_app f : forall i, i = fst (span f i) ++ snd (span f i).
Proof. induction i as [|c i IH]; [reflexivity|]. cbn. destruct (f c); [|reflexivity]. destruct (span f i). cbn in *. congruence. Qed.
Lemma find_sub_app t : forall i a b, find_sub t i = Some (a, b) -> i = a ++ b.
Proof.
  induction i as [|c i IH]; intros a b H; cbn in H; destruct (strip_prefix t _); try discriminate; try (injection H as <- <-; reflexivity).
  destruct (find_sub t i) as [[a' b']|]; [|discriminate]. injection H as <- <-. cbn. f_equal. apply IH. reflexivity.
Qed.
Lemma tag_from s t j : Slice s j -> FromRes s (Slice s) (tag t j).
Proof.
  intros H. unfold tag. destruct (strip_prefix t j) as [r|] eqn:E; [|exact H]. apply strip_prefix_app in E. subst. split; eapply Slice_trans; eauto using Slice_l, Slice_r.
Qed.
Lemma take_while_from s f j : Slice s j -> FromRes s (Slice s) (take_while f j).
Proof. intros H. unfold take_while. pose proof (span_app f j) as E. destruct (span f j) as [a b]. cbn in E. subst. split; eapply Slice_trans; eauto using Slice_l, Slice_r. Qed.
Lemma take_while1_from s f j : Slice s j -> FromRes s (Slice s) (take_while1 f j).
Proof. intros H. unfold take_while1. pose proof (span_app f j) as E. destruct (span f j) as [[|c a] b]; [exact H|]. cbn [fst snd] in E. rewrite E in H. split; eapply Slice_trans; eauto using Slice_l, Slice_r. Qed.
Lemma take_until_from s t j : Slice s j -> FromRes s (Slice s) (take_until t j).
Proof. intros H. unfold take_until. destruct (find_sub t j) as [[a b]|] eqn:E; [|exact H]. apply find_sub_app in E. subst. split; eapply Slice_trans; eauto using Slice_l, Slice_r. Qed.
Lemma one_of_from s t j : Slice s j -> FromRes s (fun _ => True) (one_of t j).
Proof. intros H. destruct j as [|c j]; [exact H|]. cbn. destruct (existsb _ _); [|exact H]. split; [|exact Logic.I]. eapply Slice_trans; [exact H|]. apply (Slice_r [c]). Qed.
Lemma pchar_from s t j : Slice s j -> FromRes s (fun _ => True) (pchar t j).
Proof. intros H. destruct j as [|c j]; [exact H|]. cbn. destruct (N.eqb _ _); [|exact H]. split; [|exact Logic.I]. eapply Slice_trans; [exact H|]. apply (Slice_r [c]). Qed.
Lemma recognize_from s (p : parser text value) j : (FromRes s (From s) (p j)) -> Slice s j -> FromRes s (Slice s) (recognize p j).
Proof.
  intros H Hj. unfold recognize. destruct (p j) as [r v|e|]; try exact H. split; [exact (proj1 H)|]. eapply Slice_trans; [exact Hj|].
  rewrite <- (firstn_skipn (length j - length r) j) at 1. apply Slice_l.
Qed.
Section Loops.
  Context (s : text) (p q : parser text value) (Hp : forall j, Slice s j -> FromRes s (From s) (p j)) (Hq : forall j, Slice s j -> FromRes s (From s) (q j)).
  Lemma many0_from n : forall j, Slice s j -> FromRes s (Froms s) (many0 text_eqb n p j).
  Proof.
    unfold many0. intros j Hj. assert (A : Froms s []) by constructor. revert j Hj A. generalize (@nil value) as acc. induction n as [|n IH]; intros acc j Hj A; [exact Logic.I|]. cbn.
    pose proof (Hp j Hj) as K. destruct (p j) as [r v|[]|]; try exact K; [|split; assumption]. destruct (text_eqb r j); [exact Hj|]. destruct K as [K1 K2]. apply IH; [exact K1|].
    apply Forall_app. split; [exact A|]. constructor; [exact K2|constructor].
  Qed.
  Lemma sep_loop_from n : forall j acc, Slice s j -> Froms s acc -> FromRes s (Froms s) (sep_loop text_eqb n p q j acc).
  Proof.
    induction n as [|n IH]; intros j acc Hj A; [exact Logic.I|]. cbn. pose proof (Hp j Hj) as K. destruct (p j) as [r v|[]|]; try exact K; [|split; assumption].
    destruct K as [K1 K2]. destruct (text_eqb r j); [exact K1|]. pose proof (Hq r K1) as L. destruct (q r) as [r' w|[]|]; try exact L; [|split; assumption].
    destruct L as [L1 L2]. destruct (text_eqb r' j); [exact L1|]. apply IH; [exact L1|]. apply Forall_app. split; [exact A|]. constructor; [exact L2|constructor].
  Qed.
  Lemma sep_from n j : Slice s j -> FromRes s (Froms s) (separated_list text_eqb n p q j).
  Proof.
    intros Hj. unfold separated_list. pose proof (Hq j Hj) as K. destruct (q j) as [r v|[]|]; try exact K; [|split; [assumption|constructor]].
    destruct K as [K1 K2]. destruct (text_eqb r j); [exact K1|]. apply sep_loop_from; [exact K1|]. constructor; [exact K2|constructor].
  Qed.
  Lemma sep1_from n j : Slice s j -> FromRes s (Froms s) (separated_nonempty_list text_eqb n p q j).
  Proof.
    intros Hj. unfold separated_nonempty_list. pose proof (Hq j Hj) as K. destruct (q j) as [r v|[]|]; try exact K.
    destruct K as [K1 K2]. destruct (text_eqb r j); [exact K1|]. apply sep_loop_from; [exact K1|]. constructor; [exact K2|constructor].
  Qed.
  Lemma opt_from j : Slice s j -> FromRes s (fun o => match o with Some v => From s v | None => True end) (opt p j).
  Proof. intros Hj. unfold opt. pose proof (Hp j Hj) as K. destruct (p j) as [r v|[]|]; try exact K. split; [exact Hj|exact Logic.I]. Qed.
  Lemma alt_from j : Slice s j -> FromRes s (From s) (alt_or p q j).
  Proof. intros Hj. unfold alt_or. pose proof (Hp j Hj) as K. destruct (p j) as [r v|[]|]; try exact K. apply Hq. exact Hj. Qed.
  Lemma terminated_from j : Slice s j -> FromRes s (From s) (bind p (fun v => bind q (fun _ => ret v)) j).
  Proof.
    intros Hj. unfold bind, ret. pose proof (Hp j Hj) as K. destruct (p j) as [r v|[]|]; try exact K. destruct K as [K1 K2]. pose proof (Hq r K1) as L.
    destruct (q r) as [r' w|[]|]; try exact L. split; [exact (proj1 L)|exact K2].
  Qed.
End Loops.

(** ** Expressions without string literals, other than the patterns given to the parsers of nom *)
Fixpoint clean (x : expr) : bool :=
  match x with
  | EStr _ => false
  | EVar _ | EChar _ | EBool _ | ESelf _ | ERecord _ | EDefault | EPath _ => true
  | ETuple l | ECon _ l | ENew _ _ l | ECall _ l => clean_l l
  | EParse _ e | EClo _ e => clean e
  | ENom _ _ i => clean i
  | EMethod e _ l => clean e && clean_l l
  | EBin _ a b => clean a && clean b
  | EMatch e l => clean e && clean_a l
  | EBlock l e => clean_s l && clean e
  | EStep i p _ k => clean i && clean p && clean k
  | EDone i e => clean i && clean e
  | EAltEnd i => clean i
  | EOpt i p | EMany0 i p | ERecognize i p => clean i && clean p
  | EAlt i p q | EMap i p q | ECond i p q | ESepList i p q | ESepList1 i p q | ETerminated i p q => clean i && clean p && clean q
  end
with clean_l (l : exprs) : bool := match l with Nil => true | Cons e l' => clean e && clean_l l' end
with clean_a (l : arms) : bool := match l with NoArm => true | Arm _ e l' => clean e && clean_a l' end
with clean_s (l : stmts) : bool :=
  match l with
  | SEnd => true
  | SLet _ e k | SSet _ e k | SAssert e k => clean e && clean_s k
  | SIf c b k | SIfLet _ c b k => clean c && clean_s b && clean_s k
  end.

Lemma lookup_from s e x v : FromEnv s e -> lookup x e = Some (Some v) -> From s v.
Proof. induction 1 as [|[y w] e H HE IH]; cbn; [discriminate|]. destruct (String.eqb x y); [intros E; injection E as ->; exact H|exact IH]. Qed.
Lemma update_from s x v : forall e e', FromEnv s e -> From s v -> update x v e = Some e' -> FromEnv s e'.
Proof.
  induction e as [|[y w] e IH]; intros e' H V U; cbn in U; [discriminate|]. inversion H; subst. destruct (String.eqb x y); [injection U as <-; constructor; assumption|].
  destruct (update x v e) as [e''|]; [|discriminate]. injection U as <-. constructor; [assumption|]. apply IH; auto.
Qed.
Fixpoint bindp_from s (p : pat) : forall v e, From s v -> bindp p v = Some e -> FromEnv s e.
Proof.
  assert (L : forall ps vs e, (forall q, In q ps -> forall v e, From s v -> bindp q v = Some e -> FromEnv s e) -> Froms s vs ->
    (fix binds ps vs := match ps, vs with [], [] => Some [] | q :: ps', w :: vs' => match bindp q w, binds ps' vs' with Some a, Some b => Some (a ++ b) | _, _ => None end | _, _ => None end) ps vs = Some e -> FromEnv s e).
  { clear bindp_from. induction ps as [|q ps IH]; intros [|w vs] e Q V H; try discriminate; [injection H as <-; constructor|]. inversion V; subst. destruct (bindp q w) as [a|] eqn:A; [|discriminate].
    match type of H with match ?x with _ => _ end = _ => destruct x as [b|] eqn:B end; [|discriminate]. injection H as <-. apply Forall_app. split.
    - eapply Q; [left; reflexivity| |exact A]; assumption.
    - eapply IH; [|eassumption|exact B]. intros r R. apply Q. right. exact R. }
  assert (M : forall ps q, In q ps -> forall v e, From s v -> bindp q v = Some e -> FromEnv s e).
  { clear L. fix go 1. intros [|r ps] q Q; [destruct Q|]. destruct Q as [<-|Q]; [exact (bindp_from s r)|exact (go ps q Q)]. }
  destruct p as [x| |ps|c ps]; intros v e V H.
  - injection H as <-. constructor; [exact V|constructor].
  - injection H as <-. constructor.
  - destruct v; try discriminate. cbn [bindp] in H. apply From_tup in V. exact (L _ _ _ (M ps) V H).
  - destruct v; try discriminate. cbn [bindp] in H. destruct (String.eqb _ _); [|discriminate]. apply From_con in V. exact (L _ _ _ (M ps) V H).
Defined.
Lemma con_from s c l : Froms s l -> From s (con c l).
Proof.
  intros H. unfold con. destruct (String.eqb c "NomErr::Error").
  - destruct l as [|[| | |[|[i| | | | | | | | |] [|[| | | | | | | | |k] [|? ?]]]| | | | | |] [|? ?]]; try (apply From_con; exact H). inversion H as [|? ? K _]; subst. apply From_tup in K. inversion K; subst. assumption.
  - destruct (String.eqb c "ErrorKind::Tag"); [destruct l; [exact Logic.I|]|]; apply From_con; exact H.
Qed.
Lemma record_from s te e : FromEnv s e -> forall l fs, record te e l = Some fs -> Forall (fun f => From s (snd f)) fs.
Proof.
  intros HE. induction l as [|[f t] l IH]; intros fs H; cbn in H; [injection H as <-; constructor|].
  destruct (lookup f e) as [[v|]|] eqn:L; [| |discriminate].
  - destruct (record te e l); [|discriminate]. injection H as <-. constructor; [eapply lookup_from; eassumption|apply IH; reflexivity].
  - destruct (default (subst te t)) as [v|] eqn:D; [|discriminate]. destruct (record te e l); [|discriminate]. injection H as <-. constructor; [|apply IH; reflexivity].
    unfold default in D. destruct (subst te t) as [x [|]|]; try discriminate. destruct (existsb _ _); [|discriminate]. injection D as <-. exact Logic.I.
Qed.
Lemma method_from s v m l : From s v -> Froms s l -> FromAns s (method v m l).
Proof.
  intros V L. destruct v as [t|c| | | |c a| |t| |]; try exact Logic.I; destruct l as [|d [|? ?]]; try exact Logic.I; cbn [method];
    repeat match goal with |- context [if String.eqb m ?k then _ else _] => destruct (String.eqb m k) end; try exact Logic.I; try exact V.
  - destruct a as [|x [|? ?]]; try exact Logic.I; destruct (String.eqb _ _); try exact Logic.I; [inversion L; assumption|]. apply From_con in V. inversion V; assumption.
  - destruct t; cbn; auto.
Qed.
Lemma binop_from s op v w : FromAns s (binop op v w).
Proof. unfold binop. destruct v; try exact Logic.I. destruct w; try exact Logic.I. repeat destruct (String.eqb _ _); exact Logic.I. Qed.
Lemma skipn_from s n e : FromEnv s e -> FromEnv s (skipn n e).
Proof. unfold FromEnv. intros H. rewrite <- (firstn_skipn n e) in H. apply Forall_app in H. apply H. Qed.
Definition FromS s r := match r with SEnv e => FromEnv s e | _ => True end.
Lemma leave_from s e r : FromS s r -> FromS s (leave e r).
Proof. destruct r; cbn; auto using skipn_from. Qed.
Lemma from_ok s r v : Slice s r -> From s v -> From s (vok r v). Proof. cbn. auto. Qed.
Lemma from_err s e : FromRes s (From s) (Err e) -> From s (verr e). Proof. destruct e; cbn; auto. Qed.

Section Eval.
Context (s : text) (fuel : nat) (cl : callee -> list value -> ans) (te : tenv) (self : string).
Context (Hcl : forall f l, Froms s l -> FromAns s (cl f l)).
Notation ev := (eval fuel cl te self).
Theorem eval_from :
  (forall x, clean x = true -> forall e, FromEnv s e -> FromAns s (ev e x) /\ forall p b, x = EClo p b -> FromAns s (ev e b)) /\
  (forall l, clean_l l = true -> forall e, FromEnv s e -> match evals fuel cl te self e l with inl vs => Froms s vs | inr a => FromAns s a end) /\
  (forall l, clean_a l = true -> forall e v, FromEnv s e -> From s v -> FromAns s (eval_arms fuel cl te self e v l)) /\
  (forall l, clean_s l = true -> forall e, FromEnv s e -> FromS s (exec fuel cl te self e l)).
Proof.
  assert (ON : forall i e k, FromAns s (ev e i) -> (forall j, Slice s j -> FromAns s (k j)) -> FromAns s (match ev e i with Val (VStr j) => k j | Val _ => Stuck | a => a end)).
  { intros i e k A K. destruct (ev e i) as [[]| |]; try exact Logic.I. apply K. exact A. }
  assert (IN : forall e j, FromEnv s e -> Slice s j -> FromEnv s (inp j e)) by (intros; constructor; assumption).
  assert (SUB : forall p e, FromEnv s e -> (forall e, FromEnv s e -> FromAns s (ev e p)) -> forall j, Slice s j -> FromRes s (From s) (unlift (ev (inp j e) p))) by (intros; apply unlift_from; auto).
  assert (APP : forall e e', FromEnv s e -> FromEnv s e' -> FromEnv s (e' ++ e)) by (intros; apply Forall_app; split; assumption).
  apply expr_mut.
  all: try (intros; cbn [clean] in *; repeat match goal with H : (_ && _)%bool = true |- _ => apply andb_prop in H; destruct H end;
    repeat match goal with IH : clean ?x = true -> _, K : clean ?x = true |- _ => specialize (IH K) end;
    repeat match goal with IH : clean_l ?x = true -> _, K : clean_l ?x = true |- _ => specialize (IH K) end;
    match goal with E : FromEnv s ?e |- _ => rewrite eval_step; cbn [estep] end;
    split; [|try discriminate]).
  all: repeat match goal with IH : forall e, FromEnv s e -> FromAns s (ev e ?x) /\ (forall p b, ?x = EClo p b -> FromAns s (ev e b)) |- _ =>
         assert (forall e, FromEnv s e -> FromAns s (ev e x)) by (intros; apply IH; assumption);
         let C := fresh "CLO" in assert (C : forall p b, x = EClo p b -> forall e, FromEnv s e -> FromAns s (ev e b)) by (intros ? ? ? ? G; eapply (IH _ G); eassumption); clear IH end.
  all: try exact Logic.I; try (apply ON; [solve [auto]|intros j Hj]).
  all: try discriminate.
  all: try (match goal with IH : forall e, FromEnv s e -> match evals _ _ _ _ e ?l with _ => _ end, E : FromEnv s ?e |- context [evals _ _ _ _ ?e ?l] => let G := fresh "G" in pose proof (IH e E) as G; destruct (evals fuel cl te self e l); [|exact G] end).
  all: try (match goal with H : forall e, FromEnv s e -> FromAns s (ev e ?x), E : FromEnv s ?e |- FromAns s (match ev ?e ?x with _ => _ end) => let G := fresh "G" in let v := fresh "v" in pose proof (H e E) as G; destruct (ev e x) as [v| |]; try exact Logic.I; cbn [FromAns] in G end).
  - destruct (lookup x e) as [[v|]|] eqn:L; try exact Logic.I. eapply lookup_from; eassumption.
  - apply From_tup. assumption.
  - apply con_from. assumption.
  - match goal with G : Froms s ?l |- _ => destruct l as [|a [|]]; try exact Logic.I; inversion G; subst end. cbn. auto.
  - destruct (record te e l) eqn:R; [|exact Logic.I]. apply From_data. eapply record_from; eassumption.
  - apply Hcl. constructor; [assumption|constructor].
  - match goal with G : Froms s ?l |- _ => destruct (String.eqb _ _); [destruct l as [|[] [|]]; exact Logic.I|apply Hcl; exact G] end.
  - destruct (String.eqb f "take_while"); [apply lift_from, vtext_from, take_while_from; assumption|]. destruct (String.eqb f "take_while1"); [apply lift_from, vtext_from, take_while1_from; assumption|].
    destruct (ev e0 a) as [v| |]; try exact Logic.I. destruct v; try exact Logic.I.
    + destruct (String.eqb f "tag"); [apply lift_from, vtext_from, tag_from; assumption|]. destruct (String.eqb f "take_until"); [apply lift_from, vtext_from, take_until_from; assumption|].
      destruct (String.eqb f "one_of"); [|exact Logic.I]. apply lift_from, vchar_from, one_of_from. assumption.
    + destruct (String.eqb f "char"); [|exact Logic.I]. apply lift_from, vchar_from, pchar_from. assumption.
  - match goal with IH : forall e, FromEnv s e -> match evals _ _ _ _ e ?l with _ => _ end, E : FromEnv s ?e |- context [evals _ _ _ _ ?e ?l] => let K := fresh "K" in pose proof (IH e E) as K; destruct (evals fuel cl te self e l); [|exact K] end.
    apply method_from; assumption.
  - destruct (String.eqb op "||"); [destruct v as [| |[]| | | | | | |]; try exact Logic.I; auto|]. destruct (String.eqb op "&&"); [destruct v as [| |[]| | | | | | |]; try exact Logic.I; auto|].
    destruct (ev e b); try exact Logic.I. apply binop_from.
  - auto.
  - intros p b E. injection E as <- <-. auto.
  - match goal with IH : clean_s l = true -> _, K : clean_s l = true, E : FromEnv s ?e |- _ => specialize (IH K e E) end. destruct (exec fuel cl te self e0 l); try exact Logic.I. auto.
  - pose proof (SUB p e ltac:(assumption) ltac:(assumption) j Hj) as K. destruct (unlift _) as [r v|er|]; [|apply from_err; exact K|exact Logic.I]. destruct K as [K1 K2].
    match goal with H : forall e, FromEnv s e -> FromAns s (ev e k) |- _ => apply H end. apply IN; [|exact K1]. constructor; [exact K2|assumption].
  - apply from_ok; assumption.
  - apply lift_from, alt_from; auto.
  - apply lift_from. exact Hj.
  - apply lift_from, vopt_from, opt_from; auto.
  - apply lift_from, vec_from, many0_from; auto.
  - apply lift_from, vtext_from, recognize_from; auto.
  - pose proof (SUB p e ltac:(assumption) ltac:(assumption) j Hj) as K. destruct (unlift _) as [r v|er|]; [|apply from_err; exact K|exact Logic.I]. destruct K as [K1 K2].
    destruct f as [ | | | | | | | | | | | | | | | |q b| | | | | | | | | | | | | | ]; try exact Logic.I. destruct (bindp q v) as [e'|] eqn:B; [|exact Logic.I]. apply bindp_from with (s := s) in B; [|exact K2].
    match goal with H : forall p b0, EClo q b = EClo p b0 -> _ |- _ => pose proof (H _ _ eq_refl (e' ++ e) ltac:(auto)) as L end. destruct (ev (e' ++ e) b); try exact Logic.I. apply from_ok; assumption.
  - destruct v as [| |[]| | | | | | |]; try exact Logic.I; [|apply from_ok; [exact Hj|exact Logic.I]].
    pose proof (SUB p e ltac:(assumption) ltac:(assumption) j Hj) as K. destruct (unlift _) as [r v|er|]; [|apply from_err; exact K|exact Logic.I]. destruct K as [K1 K2]. apply from_ok; [exact K1|]. cbn. auto.
  - apply lift_from, vec_from, sep_from; auto.
  - apply lift_from, vec_from, sep1_from; auto.
  - apply lift_from, terminated_from; auto.
  - intros _ e _. constructor.
  - intros x IHx l IHl H e E. cbn [clean_l] in H. apply andb_prop in H. destruct H as [H1 H2]. rewrite evals_Cons. pose proof (proj1 (IHx H1 e E)) as G. destruct (ev e x) as [v| |]; try exact Logic.I.
    pose proof (IHl H2 e E) as K. destruct (evals _ _ _ _ e l); [|exact K]. constructor; assumption.
  - intros _ e v _ _. exact Logic.I.
  - intros p x IHx l IHl H e v E V. cbn [clean_a] in H. apply andb_prop in H. destruct H as [H1 H2]. rewrite eval_arms_Arm. destruct (bindp p v) as [e'|] eqn:B; [|auto]. apply bindp_from with (s := s) in B; [|exact V].
    apply (IHx H1). auto.
  - intros _ e E. exact E.
  - intros p x IHx k IHk H e E. cbn [clean_s] in H. apply andb_prop in H. destruct H as [H1 H2]. rewrite exec_step.
    assert (Y : FromS s (match ev e x with Val v => match bindp p v with Some e' => exec fuel cl te self (e' ++ e) k | None => SStuck end | Panic => SPanic | Stuck => SStuck end)).
    { pose proof (proj1 (IHx H1 e E)) as G. destruct (ev e x) as [v| |]; try exact Logic.I. destruct (bindp p v) as [e'|] eqn:B; [|exact Logic.I]. apply bindp_from with (s := s) in B; [|exact G]. auto. }
    destruct p; try exact Y. destruct x; try exact Y. cbn [sstep]. apply IHk; [exact H2|]. constructor; [exact Logic.I|exact E].
  - intros y x IHx k IHk H e E. cbn [clean_s] in H. apply andb_prop in H. destruct H as [H1 H2]. rewrite exec_step. cbn [sstep]. pose proof (proj1 (IHx H1 e E)) as G. destruct (ev e x) as [v| |]; try exact Logic.I.
    destruct (update y v e) as [e'|] eqn:U; [|exact Logic.I]. apply IHk; [exact H2|]. eapply update_from; eassumption.
  - intros c IHc b IHb k IHk H e E. cbn [clean_s] in H. apply andb_prop in H. destruct H as [H H3]. apply andb_prop in H. destruct H as [H1 H2]. rewrite exec_step. cbn [sstep].
    destruct (ev e c) as [v| |]; try exact Logic.I. destruct v as [| |[]| | | | | | |]; try exact Logic.I; [|auto]. pose proof (leave_from s e _ (IHb H2 e E)) as L. destruct (leave _ _) as [e'| |]; try exact Logic.I. auto.
  - intros p c IHc b IHb k IHk H e E. cbn [clean_s] in H. apply andb_prop in H. destruct H as [H H3]. apply andb_prop in H. destruct H as [H1 H2]. rewrite exec_step. cbn [sstep].
    pose proof (proj1 (IHc H1 e E)) as G. destruct (ev e c) as [v| |]; try exact Logic.I. destruct (bindp p v) as [e'|] eqn:B; [|auto]. apply bindp_from with (s := s) in B; [|exact G].
    pose proof (leave_from s e _ (IHb H2 (e' ++ e) ltac:(auto))) as L. destruct (leave _ _) as [e''| |]; try exact Logic.I. auto.
  - intros c IHc k IHk H e E. cbn [clean_s] in H. apply andb_prop in H. destruct H as [H1 H2]. rewrite exec_step. cbn [sstep].
    destruct (ev e c) as [v| |]; try exact Logic.I. destruct v as [| |[]| | | | | | |]; try exact Logic.I. auto.
Qed.
End Eval.

(** ** The crate *)
Lemma impls_clean : forallb (fun i => clean (snd i)) parse_impls = true.
Proof. vm_cast_no_check (eq_refl true). Qed.
Lemma fns_clean : forallb (fun f => clean (snd (snd f))) fns = true.
Proof. vm_cast_no_check (eq_refl true). Qed.
Lemma find_parse_clean t te x b : find_parse t = Some (te, x, b) -> clean b = true.
Proof.
  pose proof impls_clean as C. unfold find_parse. generalize parse_impls, C. clear C. induction l as [|[[[vs p] y] e] l IH]; cbn [forallb snd]; intros C H; [discriminate|]. apply andb_prop in C. destruct C as [C1 C2].
  destruct (match_ty vs p t); [injection H as <- <- <-; exact C1|exact (IH C2 H)].
Qed.
Lemma fns_lookup_clean g x b : lookup g fns = Some (x, b) -> clean b = true.
Proof.
  pose proof fns_clean as C. generalize fns, C. clear C. induction l as [|[y [z e]] l IH]; cbn [forallb snd lookup]; intros C H; [discriminate|]. apply andb_prop in C. destruct C as [C1 C2].
  destruct (String.eqb g y); [injection H as <- <-; exact C1|exact (IH C2 H)].
Qed.
Theorem call_from s : forall n f l, Froms s l -> FromAns s (call n f l).
Proof.
  induction n as [|n IH]; intros f l L; [exact Logic.I|]. cbn [call]. destruct f as [t|g]; destruct l as [|v [|? ?]]; try exact Logic.I; inversion L as [|? ? V _]; subst.
  - destruct (find_parse t) as [[[te x] b]|] eqn:F; [|exact Logic.I]. refine (proj1 (proj1 (eval_from s n (call n) te (ty_name t) IH) b (find_parse_clean _ _ _ _ F) _ _)). constructor; [exact V|constructor].
  - destruct (lookup g fns) as [[x b]|] eqn:F; [|exact Logic.I]. refine (proj1 (proj1 (eval_from s n (call n) [] "" IH) b (fns_lookup_clean _ _ _ F) _ _)). constructor; [exact V|constructor].
Qed.

(** ** What occurs in a value *)
Inductive Occurs (x : text) : value -> Prop :=
| O_str : Occurs x (VStr x)
| O_tup v l : In v l -> Occurs x v -> Occurs x (VTup l)
| O_vec v l : In v l -> Occurs x v -> Occurs x (VVec l)
| O_con c v l : In v l -> Occurs x v -> Occurs x (VCon c l)
| O_data t c f v l : In (f, v) l -> Occurs x v -> Occurs x (VData t c l).
Lemma From_occurs s x v : Occurs x v -> From s v -> Slice s x.
Proof.
  induction 1 as [|v l I _ IH|v l I _ IH|c v l I _ IH|t c f v l I _ IH]; intros H; [exact H| | | |]; apply IH.
  - apply From_tup in H. exact (proj1 (Forall_forall _ _) H _ I).
  - apply From_vec in H. exact (proj1 (Forall_forall _ _) H _ I).
  - apply From_con in H. exact (proj1 (Forall_forall _ _) H _ I).
  - apply From_data in H. exact (proj1 (Forall_forall _ _) H _ I).
Qed.
Theorem slices n f s v : call n f [VStr s] = Val v -> forall x, Occurs x v -> Slice s x.
Proof.
  intros H x O. pose proof (call_from s n f [VStr s]) as K. rewrite H in K. apply (From_occurs _ _ _ O). apply K. constructor; [apply Slice_refl|constructor].
Qed.
Theorem error_slices n f s i k : call n f [VStr s] = Val (verr (Error i k)) \/ call n f [VStr s] = Val (verr (Failure i k)) -> Slice s i.
Proof.
  intros H. pose proof (call_from s n f [VStr s]) as K. destruct H as [H|H]; rewrite H in K; apply K; (constructor; [apply Slice_refl|constructor]).
Qed.

(** All bodies of the source are clean. *)
Theorem crate_clean i : In i crate_items -> match i with IParse _ _ _ b | IFn _ _ b => clean b = true | _ => True end.
Proof.
  assert (H : forallb (fun i => match i with IParse _ _ _ b | IFn _ _ b => clean b | _ => true end) crate_items = true) by (vm_cast_no_check (eq_refl true)).
  intros I. pose proof (proj1 (forallb_forall _ _) H i I) as K. destruct i; try exact Logic.I; exact K.
Qed.
