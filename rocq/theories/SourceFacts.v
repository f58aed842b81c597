(** * The declarations in the source: all types *)
From Coq Require Import String Ascii NArith Arith Bool List Lia.
From Verif Require Import Nom Lex Ast Grammar Data Order Api ApiFacts LexProps Source Crate Interp Embed SourceLex SourceProps SourceData SourceWt SourceOnto.
Import ListNotations.
Open Scope string_scope.
Open Scope list_scope.

(** ** Types *)
Lemma modelled_wt t A p enc : Modelled t A p enc -> forall x, wt (enc x) t.
Proof.
  induction 1; intros x; try (auto with wt; fail).
  - apply w_term.
  - apply w_option. destruct x; auto.
  - apply wt_box. auto.
  - apply w_list. apply Forall_forall. auto.
  - apply wt_tuple. repeat constructor; auto.
  - apply wt_tuple. repeat constructor; auto.
  - unfold enc_Parenthesized. wstruct0; [unfold vt; term|auto|unfold vt; term].
  - unfold enc_Bracketed. wstruct0; [unfold vt; term|auto|unfold vt; term].
  - unfold enc_Braced. wstruct0; [unfold vt; term|auto|unfold vt; term].
  - unfold enc_Generics. wstruct0; [unfold vt; term|auto|unfold vt; term].
  - unfold enc_Punctuated. wstruct0; [|apply w_term]. apply w_list. apply Forall_forall. auto.
  - unfold enc_PunctuatedNonEmpty. wstruct0; [|apply w_term]. apply w_list. apply Forall_forall. auto.
  - destruct x. unfold enc_MayBeNull. wstruct0; [auto|]. apply w_option. destruct q_mark; [|exact Logic.I]. unfold vu, vt. term.
Qed.
Theorem impl_wt t A P enc : ImplFor t A P enc -> forall x, wt (enc x) t.
Proof. destruct 1; intros x; try (auto with wt; fail). eapply modelled_wt. eassumption. Qed.
(** The other direction: the values of the type are those of trees. *)
Lemma term_plain c : match lookup (term_type c) structs with Some (_, (_, [])) => true | _ => false end &&
  none (lookup (term_type c) enum_decls) && negb (library (term_type c)) = true.
Proof.
  assert (E : forallb (fun c => match lookup (term_type c) structs with Some (_, (_, [])) => true | _ => false end &&
    none (lookup (term_type c) enum_decls) && negb (library (term_type c))) all_terms = true) by (vm_compute; reflexivity).
  rewrite forallb_forall in E. apply E, term_In.
Qed.
Lemma modelled_onto t A p enc : Modelled t A p enc -> forall n, Onto n t enc.
Proof.
  induction 1; intros n; try (auto with onto; fail).
  - intros v _ W. exists tt. apply on_term in W; [exact W|apply term_plain].
  - apply on_option; auto.
  - apply on_box; auto.
  - apply on_vec; auto.
  - intros v L W. apply tuple_inv in W. destruct W as (l & -> & F). apply cons_inv in F. destruct F as (x & l' & -> & X & F).
    apply cons_inv in F. destruct F as (y & l & -> & Y & F). apply nil_inv in F. subst. msize'.
    destruct (IHModelled1 n x ltac:(lia) X) as [a ->]. destruct (IHModelled2 n y ltac:(lia) Y) as [b ->]. exists (a, b). reflexivity.
  - intros w L W. apply tuple_inv in W. destruct W as (l & -> & F). apply cons_inv in F. destruct F as (x & l' & -> & X & F).
    apply cons_inv in F. destruct F as (y & l'' & -> & Y & F). apply cons_inv in F. destruct F as (z & l & -> & Z & F). apply nil_inv in F. subst. msize'.
    destruct (IHModelled1 n x ltac:(lia) X) as [a ->]. destruct (IHModelled2 n y ltac:(lia) Y) as [b ->].
    destruct (IHModelled3 n z ltac:(lia) Z) as [c ->]. exists (a, b, c). reflexivity.
  - apply on_Parenthesized; auto.
  - apply on_Bracketed; auto.
  - apply on_Braced; auto.
  - apply on_Generics; auto.
  - apply on_Punctuated; [auto|apply term_plain].
  - apply on_PunctuatedNonEmpty; [auto|apply term_plain].
  - apply on_MayBeNull; auto.
Qed.
Theorem impl_values t A P enc : ImplFor t A P enc -> forall v, wt v t <-> exists x, v = enc x.
Proof.
  intros H v. split; [|intros [x ->]; eapply impl_wt; exact H]. intros W. destruct H.
  - eapply (modelled_onto _ _ _ _ H); [apply le_n|exact W].
  - eapply onto_DecLit; [apply le_n|exact W].
  - eapply onto_HexLit; [apply le_n|exact W].
  - eapply onto_OctLit; [apply le_n|exact W].
  - eapply onto_IntegerLit; [apply le_n|exact W].
  - eapply onto_BooleanLit; [apply le_n|exact W].
  - eapply onto_FloatValueLit; [apply le_n|exact W].
  - eapply onto_FloatLit; [apply le_n|exact W].
  - exists tt. apply onto_EmptyArrayLit, W.
  - exists tt. apply onto_EmptyDictionaryLit, W.
Qed.
Theorem source_typed t A P enc : ImplFor t A P enc ->
  forall i, exists N, forall n r v, N <= n -> call n (CParse t) [VStr i] = Val (VCon "Ok" [VTup [VStr r; v]]) -> wt v t.
Proof.
  intros H i. destruct (implements_source _ _ _ _ H i) as [N HN]. exists N. intros n r v Hn E. rewrite (HN n Hn) in E.
  destruct (P i) as [r' x|e|]; cbn in E; try discriminate. injection E as _ <-. eapply impl_wt, H.
Qed.

Theorem parse_typed raw : exists N, forall n v, N <= n -> call n (CFn "parse") [VStr raw] = Val (VCon "Ok" [v]) -> wt v (Ty "Vec" [Ty "Definition" []]).
Proof.
  destruct (parse_source raw) as [N HN]. exists N. intros n v Hn E. rewrite (HN n Hn) in E. destruct (parse raw) as [defs|e| |]; cbn in E; try discriminate E.
  injection E as <-. apply w_list, Forall_forall. intros d _. apply wt_Definition.
Qed.

(** ** Comparisons *)
Definition same {A} (enc : A -> value) (f : A -> data) : Prop := forall x y, cmp (dv (enc x)) (dv (enc y)) = cmp (f x) (f y).
Lemma same_Forall A (enc : A -> value) f l : same enc f -> Forall (sameat enc f) l.
Proof. intros H. apply Forall_forall. intros x _ y. apply H. Qed.
Lemma same_at A (enc : A -> value) f : (forall x, sameat enc f x) -> same enc f.
Proof. exact (fun H => H). Qed.
Lemma modelled_order t A p enc : Modelled t A p enc -> exists f, Repr A f /\ same enc f.
Proof.
  induction 1; repeat match goal with H : exists f, _ /\ _ |- _ => destruct H as (? & ? & ?) end.
  all: try (eexists; split; [constructor|]; apply same_at; intros x; auto with ord; fail).
  - exists d_unit. split; [constructor|intro; apply o_unit].
  - exists d_text. split; [constructor|intro; apply o_Identifier].
  - exists d_text. split; [constructor|intro; apply o_StringLit].
  - exists d_text. split; [constructor|intro; apply o_NoArgs].
  - exists (d_option x). split; [constructor; assumption|]. intros [a|]; apply o_option; [intro; auto|exact Logic.I].
  - exists x. split; [assumption|]. intro a. apply o_box. intro; auto.
  - exists (d_list x). split; [constructor; assumption|]. intro a. apply o_vec, same_Forall. assumption.
  - exists (d_pair x0 x). split; [constructor; assumption|]. intros [a b] [a' b']. cbn [fst snd]. unfold d_pair. wrap. rewrite H2, H4. reflexivity.
  - exists (d_pair (d_pair x1 x0) x). split; [repeat constructor; assumption|]. intros [[a b] c] [[a' b'] c']. cbn [fst snd]. unfold d_pair. do 2 wrap.
    rewrite H3, H5, H7. destruct (cmp (x1 a) (x1 a')), (cmp (x0 b) (x0 b')), (cmp (x c) (x c')); reflexivity.
  - exists x. split; [assumption|]. intro a. apply o_Parenthesized. intro; auto.
  - exists x. split; [assumption|]. intro a. apply o_Bracketed. intro; auto.
  - exists x. split; [assumption|]. intro a. apply o_Braced. intro; auto.
  - exists x. split; [assumption|]. intro a. apply o_Generics. intro; auto.
  - exists (d_list x). split; [constructor; assumption|]. intro a. apply o_Punctuated, same_Forall. assumption.
  - exists (d_list x). split; [constructor; assumption|]. intro a. apply o_PunctuatedNonEmpty, same_Forall. assumption.
  - exists (d_null x). split; [constructor; assumption|]. intros [a q]. apply o_null. intro; auto.
Qed.
Theorem impl_order t A P enc : ImplFor t A P enc -> exists f, Repr A f /\ same enc f.
Proof.
  destruct 1; try (eexists; split; [constructor|]; apply same_at; intros x; first [apply o_DecLit | apply o_BooleanLit | auto with ord]; fail).
  - eapply modelled_order. eassumption.
  - exists d_unit. split; [constructor|]. intros x y. unfold d_unit. rewrite (proj2 (cmp_Eq _ _) eq_refl). reflexivity.
  - exists d_unit. split; [constructor|]. intros x y. unfold d_unit. rewrite (proj2 (cmp_Eq _ _) eq_refl). reflexivity.
Qed.

(** Nothing is lost by the encoding, and what the derived implementations compare decides equality. *)
Theorem enc_injective t A P enc : ImplFor t A P enc -> forall x y, enc x = enc y -> x = y.
Proof.
  intros H x y E. destruct (impl_order _ _ _ _ H) as (f & R & S). apply (Repr_inj _ _ R). apply cmp_Eq. rewrite <- S, E. apply cmp_Eq. reflexivity.
Qed.
(** What [a.cmp(b)] gives in the source. *)
Definition derived_order (u v : value) : comparison := cmp (dv u) (dv v).
Theorem source_order t A P enc : ImplFor t A P enc ->
  (forall u v, wt u t -> wt v t -> (derived_order u v = Eq <-> u = v)) /\
  (forall u v, wt u t -> wt v t -> derived_order v u = CompOpp (derived_order u v)) /\
  (forall u v w c, wt u t -> wt v t -> wt w t -> derived_order u v = c -> derived_order v w = c -> derived_order u w = c).
Proof.
  intros H. destruct (impl_order _ _ _ _ H) as (f & R & S). destruct (ord_total _ _ R) as (O1 & O2 & O3). unfold ord, derived_order in *.
  pose proof (fun v => proj1 (impl_values _ _ _ _ H v)) as V.
  split; [|split].
  - intros u v U W. apply V in U, W. destruct U as [x ->], W as [y ->]. rewrite S, O1. split; [congruence|]. eapply enc_injective, H.
  - intros u v U W. apply V in U, W. destruct U as [x ->], W as [y ->]. rewrite !S. apply O2.
  - intros u v w c U W X. apply V in U, W, X. destruct U as [x ->], W as [y ->], X as [z ->]. rewrite !S. apply O3.
Qed.
(** The comparison of Data.v is the derived one. *)
Theorem model_order t A P enc : ImplFor t A P enc -> exists f, Repr A f /\ forall x y, ord f x y = derived_order (enc x) (enc y).
Proof. intros H. destruct (impl_order _ _ _ _ H) as (f & R & S). exists f. split; [exact R|]. intros x y. symmetry. apply S. Qed.

(** Every type that the source declares without parameters is one of these. *)
Definition declared (i : item) : list (string) := match i with IStruct _ n [] _ => [n] | IEnum _ n _ => [n] | _ => [] end.
Definition parsed (n : string) (i : item) : bool := match i with IParse [] (Ty m []) _ _ => String.eqb n m | _ => false end.
Theorem declared_covered i n : In i crate_items -> In n (declared i) -> exists A P enc, ImplFor (Ty n []) A P enc.
Proof.
  intros Hi Hn.
  assert (E : forallb (fun i => forallb (fun n => existsb (parsed n) crate_items) (declared i)) crate_items = true) by (vm_compute; reflexivity).
  rewrite forallb_forall in E. specialize (E i Hi). rewrite forallb_forall in E. specialize (E n Hn). apply existsb_exists in E. destruct E as (j & Hj & E).
  destruct j as [| | | |[|? ?] [m [|? ?]|?] ? ?| |]; try discriminate E. apply String.eqb_eq in E. subst m.
  pose proof (all_covered _ _ _ _ Hj [] eq_refl) as C. rewrite sub_nil in C. apply C. intros ? ? [].
Qed.

(** ** What is derived *)
Definition derives (i : item) : option (list string) := match i with IStruct d _ _ _ => Some d | IEnum d _ _ => Some d | _ => None end.
Definition standard_traits : list string := ["Clone"; "Debug"; "Eq"; "PartialEq"; "Ord"; "PartialOrd"; "Hash"].
Definition derives_standard (i : item) : bool :=
  match derives i with None => true | Some d => forallb (fun t => existsb (String.eqb t) d) standard_traits end.
Theorem all_derived i d : In i crate_items -> derives i = Some d -> forall t, In t standard_traits -> In t d.
Proof.
  intros Hi Hd t Ht. assert (G : forallb derives_standard crate_items = true) by (vm_compute; reflexivity).
  rewrite forallb_forall in G. specialize (G i Hi). unfold derives_standard in G. rewrite Hd in G. rewrite forallb_forall in G.
  specialize (G t Ht). apply existsb_exists in G. destruct G as (u & Hu & E). apply String.eqb_eq in E. subst u. exact Hu.
Qed.
