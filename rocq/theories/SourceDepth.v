(** * The depth of calls does not change a result

    [call n] (Interp.v) gives up with [Stuck] when calls are nested deeper than [n] or a loop of nom takes too many turns. Given a larger depth it gives the same result or,
    if it had given up, possibly another one. Together with C53: at any depth the source is stuck or has the one result of the parser. *)
From Coq Require Import String Ascii NArith Arith Bool List Lia.
From Verif Require Import Nom Lex Source Rust Crate Interp SourceHygiene.
Import ListNotations.
Open Scope string_scope.
Open Scope list_scope.

(** ** Given up, or the same *)
Definition le (a b : ans) : Prop := a = Stuck \/ a = b.
Definition rle {A} (r r' : res text A) : Prop := r = Diverge \/ r = r'.
Definition sle (a b : sans) : Prop := a = SStuck \/ a = b.
Definition lle (a b : list value + ans) : Prop := a = inr Stuck \/ a = b.
Lemma le_refl a : le a a. Proof. right. reflexivity. Qed.
Lemma rle_refl {A} (a : res text A) : rle a a. Proof. right. reflexivity. Qed.
Lemma lift_le r r' : rle r r' -> le (lift r) (lift r').
Proof. intros [->| ->]; [left|right]; reflexivity. Qed.
Lemma unlift_le a b : le a b -> rle (unlift a) (unlift b).
Proof. intros [->| ->]; [left|right]; reflexivity. Qed.
Lemma vtext_le r r' : rle r r' -> rle (vtext r) (vtext r'). Proof. intros [->| ->]; [left|right]; reflexivity. Qed.
Lemma vec_le r r' : rle r r' -> rle (vec r) (vec r'). Proof. intros [->| ->]; [left|right]; reflexivity. Qed.
Lemma vopt_le r r' : rle r r' -> rle (vopt r) (vopt r'). Proof. intros [->| ->]; [left|right]; reflexivity. Qed.

Section Loops.
  Context (p q p' q' : parser text value) (Hp : forall j, rle (p j) (p' j)) (Hq : forall j, rle (q j) (q' j)).
  Lemma many0_le n n' j : n <= n' -> rle (many0 text_eqb n p j) (many0 text_eqb n' p' j).
  Proof.
    clear Hq q q'. unfold many0. generalize (@nil value) as acc. revert n' j. induction n as [|n IH]; intros n' j acc L; [left; reflexivity|]. destruct n' as [|n']; [lia|]. cbn.
    destruct (Hp j) as [->| ->]; [left; reflexivity|]. destruct (p' j) as [r v|[]|]; try apply rle_refl. destruct (text_eqb r j); [apply rle_refl|]. apply IH. lia.
  Qed.
  Lemma sep_loop_le n : forall n' j acc, n <= n' -> rle (sep_loop text_eqb n p q j acc) (sep_loop text_eqb n' p' q' j acc).
  Proof.
    induction n as [|n IH]; intros n' j acc L; [left; reflexivity|]. destruct n' as [|n']; [lia|]. cbn.
    destruct (Hp j) as [->| ->]; [left; reflexivity|]. destruct (p' j) as [r v|[]|]; try apply rle_refl. destruct (text_eqb r j); [apply rle_refl|].
    destruct (Hq r) as [->| ->]; [left; reflexivity|]. destruct (q' r) as [r' w|[]|]; try apply rle_refl. destruct (text_eqb r' j); [apply rle_refl|]. apply IH. lia.
  Qed.
  Lemma sep_le n n' j : n <= n' -> rle (separated_list text_eqb n p q j) (separated_list text_eqb n' p' q' j).
  Proof.
    intros L. unfold separated_list. destruct (Hq j) as [->| ->]; [left; reflexivity|]. destruct (q' j) as [r v|[]|]; try apply rle_refl. destruct (text_eqb r j); [apply rle_refl|]. apply sep_loop_le. exact L.
  Qed.
  Lemma sep1_le n n' j : n <= n' -> rle (separated_nonempty_list text_eqb n p q j) (separated_nonempty_list text_eqb n' p' q' j).
  Proof.
    intros L. unfold separated_nonempty_list. destruct (Hq j) as [->| ->]; [left; reflexivity|]. destruct (q' j) as [r v|[]|]; try apply rle_refl. destruct (text_eqb r j); [apply rle_refl|]. apply sep_loop_le. exact L.
  Qed.
  Lemma opt_le j : rle (opt p j) (opt p' j).
  Proof. unfold opt. destruct (Hp j) as [->| ->]; [left|right]; reflexivity. Qed.
  Lemma recognize_le j : rle (recognize p j) (recognize p' j).
  Proof. unfold recognize. destruct (Hp j) as [->| ->]; [left|right]; reflexivity. Qed.
  Lemma alt_le j : rle (alt_or p q j) (alt_or p' q' j).
  Proof. unfold alt_or. destruct (Hp j) as [->| ->]; [left; reflexivity|]. destruct (p' j) as [r v|[]|]; try apply rle_refl. apply Hq. Qed.
  Lemma terminated_le j : rle (bind p (fun v => bind q (fun _ => ret v)) j) (bind p' (fun v => bind q' (fun _ => ret v)) j).
  Proof. unfold bind, ret. destruct (Hp j) as [->| ->]; [left; reflexivity|]. destruct (p' j) as [r v|[]|]; try apply rle_refl. destruct (Hq r) as [->| ->]; [left|right]; reflexivity. Qed.
End Loops.

Lemma span_same f g : (forall c, f c = g c) -> forall j, span f j = span g j.
Proof. intros H. induction j as [|c j IH]; [reflexivity|]. cbn. rewrite H, IH. reflexivity. Qed.
Lemma take_while_ext f g j : (forall c, f c = g c) -> take_while f j = take_while g j.
Proof. intros H. unfold take_while. rewrite (span_same f g H). reflexivity. Qed.
Lemma take_while1_ext f g j : (forall c, f c = g c) -> take_while1 f j = take_while1 g j.
Proof. intros H. unfold take_while1. rewrite (span_same f g H). reflexivity. Qed.

(** ** Expressions *)
(** Without calls and loops. *)
Fixpoint pure (x : expr) : bool :=
  match x with
  | EVar _ | EStr _ | EChar _ | EBool _ => true
  | ECall f l => String.eqb f "is_alphanumeric" && pure_l l
  | ETuple l | ECon _ l => pure_l l
  | EMethod e _ l => pure e && pure_l l
  | EBin _ a b => pure a && pure b
  | EClo _ e => pure e
  | _ => false
  end
with pure_l (l : exprs) : bool := match l with Nil => true | Cons e l' => pure e && pure_l l' end.
(** The patterns for the parsers of nom are [pure]. *)
Fixpoint mono (x : expr) : bool :=
  match x with
  | EVar _ | EStr _ | EChar _ | EBool _ | ESelf _ | ERecord _ | EDefault | EPath _ => true
  | ETuple l | ECon _ l | ENew _ _ l | ECall _ l => mono_l l
  | EParse _ e | EClo _ e => mono e
  | ENom _ a i => pure a && mono i
  | EMethod e _ l => mono e && mono_l l
  | EBin _ a b => mono a && mono b
  | EMatch e l => mono e && mono_a l
  | EBlock l e => mono_s l && mono e
  | EStep i p _ k => mono i && mono p && mono k
  | EDone i e => mono i && mono e
  | EAltEnd i => mono i
  | EOpt i p | EMany0 i p | ERecognize i p => mono i && mono p
  | EAlt i p q | EMap i p q | ECond i p q | ESepList i p q | ESepList1 i p q | ETerminated i p q => mono i && mono p && mono q
  end
with mono_l (l : exprs) : bool := match l with Nil => true | Cons e l' => mono e && mono_l l' end
with mono_a (l : arms) : bool := match l with NoArm => true | Arm _ e l' => mono e && mono_a l' end
with mono_s (l : stmts) : bool :=
  match l with
  | SEnd => true
  | SLet _ e k | SSet _ e k | SAssert e k => mono e && mono_s k
  | SIf c b k | SIfLet _ c b k => mono c && mono_s b && mono_s k
  end.

Section Eval.
Context (n n' : nat) (cl cl' : callee -> list value -> ans) (te : tenv) (self : string).
Context (L : n <= n') (Hcl : forall f l, le (cl f l) (cl' f l)).
Notation ev := (eval n cl te self).
Notation ev' := (eval n' cl' te self).
Theorem eval_pure :
  (forall x, pure x = true -> forall e, ev e x = ev' e x /\ forall p b, x = EClo p b -> ev e b = ev' e b) /\
  (forall l, pure_l l = true -> forall e, evals n cl te self e l = evals n' cl' te self e l) /\
  (forall l : arms, True) /\ (forall l : stmts, True).
Proof.
  apply expr_mut; try exact (fun _ => Logic.I); try exact Logic.I; try (intros; exact Logic.I).
  all: intros; cbn [pure pure_l] in *; try discriminate; repeat match goal with H : (_ && _)%bool = true |- _ => apply andb_prop in H; destruct H end.
  all: try match goal with H : String.eqb ?f _ = true |- _ => apply String.eqb_eq in H; subst f end.
  all: repeat match goal with IH : pure ?x = true -> _, K : pure ?x = true |- _ => specialize (IH K) end.
  all: repeat match goal with IH : pure_l ?x = true -> _, K : pure_l ?x = true |- _ => specialize (IH K) end.
  all: try (split; [rewrite !eval_step; cbn [estep]|try discriminate]).
  all: try reflexivity.
  all: repeat match goal with IH : forall e, ev e ?x = ev' e ?x /\ _ |- context [eval n cl te self ?e ?x] => rewrite (proj1 (IH e)) end.
  all: repeat match goal with IH : forall e, evals n cl te self e ?x = _ |- context [evals n cl te self ?e ?x] => rewrite (IH e) end.
  all: try reflexivity.
  - intros p b E. injection E as <- <-. match goal with IH : forall e, _ |- _ => apply IH end.
  - rewrite !evals_Cons. match goal with IH : forall e, ev e ?x = ev' e ?x /\ _ |- context [eval n cl te self ?e ?x] => rewrite (proj1 (IH e)) end.
    match goal with IH : forall e, evals n cl te self e ?x = _ |- context [evals n cl te self ?e ?x] => rewrite (IH e) end. reflexivity.
Qed.
Theorem eval_le :
  (forall x, mono x = true -> forall e, le (ev e x) (ev' e x) /\ forall p b, x = EClo p b -> le (ev e b) (ev' e b)) /\
  (forall l, mono_l l = true -> forall e, lle (evals n cl te self e l) (evals n' cl' te self e l)) /\
  (forall l, mono_a l = true -> forall e v, le (eval_arms n cl te self e v l) (eval_arms n' cl' te self e v l)) /\
  (forall l, mono_s l = true -> forall e, sle (exec n cl te self e l) (exec n' cl' te self e l)).
Proof.
  assert (SUB : forall p e, (forall e, le (ev e p) (ev' e p)) -> forall j, rle (unlift (ev (inp j e) p)) (unlift (ev' (inp j e) p))) by (intros; apply unlift_le; auto).
  assert (F : forall j : text, n + S (length j) <= n' + S (length j)) by (intros; lia).
  apply expr_mut.
  all: try (intros; cbn [mono] in *; repeat match goal with H : (_ && _)%bool = true |- _ => apply andb_prop in H; destruct H end;
    repeat match goal with IH : mono ?x = true -> _, K : mono ?x = true |- _ => specialize (IH K) end;
    repeat match goal with IH : mono_l ?x = true -> _, K : mono_l ?x = true |- _ => specialize (IH K) end;
    match goal with |- le (eval n _ _ _ _ _) _ /\ _ => rewrite !eval_step; cbn [estep] end;
    split; [|try discriminate]).
  all: repeat match goal with IH : forall e, le (ev e ?x) (ev' e ?x) /\ (forall p b, ?x = EClo p b -> le (ev e b) (ev' e b)) |- _ =>
         assert (forall e, le (ev e x) (ev' e x)) by (intros; apply IH);
         let C := fresh "CLO" in assert (C : forall p b, x = EClo p b -> forall e, le (ev e b) (ev' e b)) by (intros ? ? ? e'; eapply (IH e'); eassumption); clear IH end.
  all: try apply le_refl.
  all: try (match goal with H : forall e, le (ev e ?x) (ev' e ?x) |- le (match ev ?e ?x with _ => _ end) _ => let v := fresh "v" in destruct (H e) as [-> | ->]; [left; reflexivity|]; destruct (ev' e x) as [v| |]; try apply le_refl end).
  all: try (match goal with IH : forall e, lle (evals n cl te self e ?l) _ |- le (match evals n cl te self ?e ?l with _ => _ end) _ => destruct (IH e) as [-> | ->]; [left; reflexivity|]; destruct (evals n' cl' te self e l); try apply le_refl end).
  all: try (match goal with |- le (match ?v with VStr _ => _ | _ => _ end) _ => destruct v as [j| | | | | | | | |]; try apply le_refl end).
  - apply Hcl.
  - destruct (String.eqb f "is_alphanumeric"); [apply le_refl|apply Hcl].
  - match goal with H : pure a = true |- _ => pose proof (fun e => proj1 (proj1 eval_pure a H e)) as PA; pose proof (fun p b (E : a = EClo p b) e => proj2 (proj1 eval_pure a H e) p b E) as PC end.
    assert (E : forall c : N, match match a with EClo p b => match bindp p (VChr c) with Some e' => ev (e' ++ e0) b | None => Stuck end | _ => Stuck end with Val (VBool b) => b | _ => false end =
      match match a with EClo p b => match bindp p (VChr c) with Some e' => ev' (e' ++ e0) b | None => Stuck end | _ => Stuck end with Val (VBool b) => b | _ => false end).
    { intros c. destruct a; try reflexivity. destruct (bindp _ _); [|reflexivity]. rewrite (PC _ _ eq_refl). reflexivity. }
    destruct (String.eqb f "take_while"); [rewrite (take_while_ext _ _ _ E); apply le_refl|]. destruct (String.eqb f "take_while1"); [rewrite (take_while1_ext _ _ _ E); apply le_refl|].
    rewrite (PA e0). apply le_refl.
  - assert (B : le (ev e b) (ev' e b)) by auto. destruct (String.eqb op "||"); [destruct v as [| |[]| | | | | | |]; try apply le_refl; exact B|].
    destruct (String.eqb op "&&"); [destruct v as [| |[]| | | | | | |]; try apply le_refl; exact B|]. destruct B as [-> | ->]; [left; reflexivity|apply le_refl].
  - match goal with IH : mono_a l = true -> _ |- _ => apply IH; assumption end.
  - intros p b E. injection E as <- <-. auto.
  - match goal with IH : mono_s l = true -> _, K : mono_s l = true |- _ => destruct (IH K e0) as [-> | ->]; [left; reflexivity|] end. destruct (exec n' cl' te self e0 l); try apply le_refl. auto.
  - destruct (SUB p e ltac:(assumption) j) as [-> | ->]; [left; reflexivity|]. destruct (unlift _) as [r v|er|]; try apply le_refl. auto.
  - match goal with H : forall e, le (ev e ?x) (ev' e ?x) |- le (match ev ?e ?x with _ => _ end) _ => destruct (H e) as [-> | ->]; [left; reflexivity|apply le_refl] end.
  - apply lift_le, alt_le; auto.
  - apply lift_le, vopt_le, opt_le; auto.
  - apply lift_le, vec_le, many0_le; auto.
  - apply lift_le, vtext_le, recognize_le; auto.
  - destruct (SUB p e ltac:(assumption) j) as [-> | ->]; [left; reflexivity|]. destruct (unlift _) as [r v|er|]; try apply le_refl.
    destruct f as [ | | | | | | | | | | | | | | | |q b| | | | | | | | | | | | | | ]; try apply le_refl. destruct (bindp q v) as [e'|]; [|apply le_refl].
    match goal with H : forall p b0, EClo q b = EClo p b0 -> _ |- _ => destruct (H _ _ eq_refl (e' ++ e)) as [-> | ->]; [left; reflexivity|apply le_refl] end.
  - match goal with H : forall e, le (ev e c) (ev' e c) |- _ => destruct (H e) as [-> | ->]; [left; reflexivity|] end. destruct (ev' e c) as [v| |]; try apply le_refl. destruct v as [| |[]| | | | | | |]; try apply le_refl.
    destruct (SUB p e ltac:(assumption) j) as [-> | ->]; [left; reflexivity|apply le_refl].
  - apply lift_le, vec_le, sep_le; auto.
  - apply lift_le, vec_le, sep1_le; auto.
  - apply lift_le, terminated_le; auto.
  - intros _ e. right. reflexivity.
  - intros x IHx l IHl H e. cbn [mono_l] in H. apply andb_prop in H. destruct H as [H1 H2]. rewrite !evals_Cons. destruct (proj1 (IHx H1 e)) as [-> | ->]; [left; reflexivity|].
    destruct (ev' e x) as [v| |]; try (right; reflexivity). destruct (IHl H2 e) as [-> | ->]; [left|right]; reflexivity.
  - intros _ e v. apply le_refl.
  - intros p x IHx l IHl H e v. cbn [mono_a] in H. apply andb_prop in H. destruct H as [H1 H2]. rewrite !eval_arms_Arm. destruct (bindp p v) as [e'|]; [apply (IHx H1)|apply (IHl H2)].
  - intros _ e. right. reflexivity.
  - intros p x IHx k IHk H e. cbn [mono_s] in H. apply andb_prop in H. destruct H as [H1 H2]. rewrite !exec_step.
    assert (Y : sle (match ev e x with Val v => match bindp p v with Some e' => exec n cl te self (e' ++ e) k | None => SStuck end | Panic => SPanic | Stuck => SStuck end)
                    (match ev' e x with Val v => match bindp p v with Some e' => exec n' cl' te self (e' ++ e) k | None => SStuck end | Panic => SPanic | Stuck => SStuck end)).
    { destruct (proj1 (IHx H1 e)) as [-> | ->]; [left; reflexivity|]. destruct (ev' e x) as [v| |]; try (right; reflexivity). destruct (bindp p v) as [e'|]; [apply (IHk H2)|right; reflexivity]. }
    destruct p; try exact Y. destruct x; try exact Y. cbn [sstep]. apply (IHk H2).
  - intros y x IHx k IHk H e. cbn [mono_s] in H. apply andb_prop in H. destruct H as [H1 H2]. rewrite !exec_step. cbn [sstep]. destruct (proj1 (IHx H1 e)) as [-> | ->]; [left; reflexivity|].
    destruct (ev' e x) as [v| |]; try (right; reflexivity). destruct (update y v e); [apply (IHk H2)|right; reflexivity].
  - intros c IHc b IHb k IHk H e. cbn [mono_s] in H. apply andb_prop in H. destruct H as [H H3]. apply andb_prop in H. destruct H as [H1 H2]. rewrite !exec_step. cbn [sstep].
    destruct (proj1 (IHc H1 e)) as [-> | ->]; [left; reflexivity|]. destruct (ev' e c) as [v| |]; try (right; reflexivity). destruct v as [| |[]| | | | | | |]; try (right; reflexivity); [|apply (IHk H3)].
    destruct (IHb H2 e) as [-> | ->]; [left; reflexivity|]. destruct (leave _ _) as [e'| |]; try (right; reflexivity). apply (IHk H3).
  - intros p c IHc b IHb k IHk H e. cbn [mono_s] in H. apply andb_prop in H. destruct H as [H H3]. apply andb_prop in H. destruct H as [H1 H2]. rewrite !exec_step. cbn [sstep].
    destruct (proj1 (IHc H1 e)) as [-> | ->]; [left; reflexivity|]. destruct (ev' e c) as [v| |]; try (right; reflexivity). destruct (bindp p v) as [e'|]; [|apply (IHk H3)].
    destruct (IHb H2 (e' ++ e)) as [-> | ->]; [left; reflexivity|]. destruct (leave _ _) as [e''| |]; try (right; reflexivity). apply (IHk H3).
  - intros c IHc k IHk H e. cbn [mono_s] in H. apply andb_prop in H. destruct H as [H1 H2]. rewrite !exec_step. cbn [sstep].
    destruct (proj1 (IHc H1 e)) as [-> | ->]; [left; reflexivity|]. destruct (ev' e c) as [v| |]; try (right; reflexivity). destruct v as [| |[]| | | | | | |]; try (right; reflexivity). apply (IHk H2).
Qed.
End Eval.

(** ** The crate *)
Lemma impls_mono : forallb (fun i => mono (snd i)) parse_impls = true.
Proof. vm_cast_no_check (eq_refl true). Qed.
Lemma fns_mono : forallb (fun f => mono (snd (snd f))) fns = true.
Proof. vm_cast_no_check (eq_refl true). Qed.
Lemma find_parse_mono t te x b : find_parse t = Some (te, x, b) -> mono b = true.
Proof.
  pose proof impls_mono as C. unfold find_parse. generalize parse_impls, C. clear C. induction l as [|[[[vs p] y] e] l IH]; cbn [forallb snd]; intros C H; [discriminate|]. apply andb_prop in C. destruct C as [C1 C2].
  destruct (match_ty vs p t); [injection H as <- <- <-; exact C1|exact (IH C2 H)].
Qed.
Lemma fns_lookup_mono g x b : lookup g fns = Some (x, b) -> mono b = true.
Proof.
  pose proof fns_mono as C. generalize fns, C. clear C. induction l as [|[y [z e]] l IH]; cbn [forallb snd lookup]; intros C H; [discriminate|]. apply andb_prop in C. destruct C as [C1 C2].
  destruct (String.eqb g y); [injection H as <- <-; exact C1|exact (IH C2 H)].
Qed.
Theorem call_le : forall n m f l, n <= m -> le (call n f l) (call m f l).
Proof.
  induction n as [|n IH]; intros m f l L; [left; reflexivity|]. destruct m as [|m]; [lia|]. assert (LM : n <= m) by lia. cbn [call].
  destruct f as [t|g]; destruct l as [|v [|? ?]]; try apply le_refl.
  - destruct (find_parse t) as [[[te x] b]|] eqn:F; [|apply le_refl]. exact (proj1 (proj1 (eval_le n m (call n) (call m) te (ty_name t) LM (fun f l => IH m f l LM)) b (find_parse_mono _ _ _ _ F) _)).
  - destruct (lookup g fns) as [[x b]|] eqn:F; [|apply le_refl]. exact (proj1 (proj1 (eval_le n m (call n) (call m) [] "" LM (fun f l => IH m f l LM)) b (fns_lookup_mono _ _ _ F) _)).
Qed.
(** If from some depth on the result is [a], it is [a] at every depth at which the run is not given up. *)
Theorem call_final f l a : (exists N, forall n, N <= n -> call n f l = a) -> forall n, call n f l = Stuck \/ call n f l = a.
Proof. intros [N H] n. destruct (call_le n (n + N) f l) as [E|E]; [lia|left; exact E|right]. rewrite E. apply H. lia. Qed.
Theorem call_once f l n m : call n f l <> Stuck -> call m f l <> Stuck -> call n f l = call m f l.
Proof. intros A B. destruct (Nat.le_ge_cases n m) as [L|L]; destruct (call_le _ _ f l L) as [E|E]; congruence. Qed.
