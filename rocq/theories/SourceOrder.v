(** * The order of the variants

    An enum gives its first variant that can be read (SourceDecl.v), so the order of its variants matters when two of them can be read
    from the same text.  Here is a procedure that follows two sequences of types through their declarations, and shows that no text
    begins with both.  It settles all pairs of variants of all enums of the source but those that have a text with both. *)
From Coq Require Import String Ascii NArith Arith Bool List Lia Permutation.
From Verif Require Import Source Rust Crate Interp Embed Faithful SourceLex SourceTypes SourceProps SourceDecl SourceDecl2 Live.
From Verif Require Import Nom Lex Bytes Ast Grammar Spec LexFacts NumFacts TermFacts LexProps Api ApiFacts.
Import ListNotations.
Open Scope string_scope.
Open Scope list_scope.

(** ** Paths through the declarations *)
(** A type, or what follows an item in a list. *)
Inductive sym : Type := Sy (t : rty) | SMore (t u : rty).
Definition step (x : sym) (s r : text) : Prop :=
  match x with Sy t => exists v, gives_ok t s r v | SMore t u => exists vs, More t u s r vs end.
Inductive Path : list sym -> text -> text -> Prop :=
| Path_nil s : Path [] s s
| Path_cons x l s m r : step x s m -> Path l m r -> Path (x :: l) s r.
Lemma step_det x s r r' : step x s r -> step x s r' -> r = r'.
Proof.
  destruct x as [t|t u]; intros [v H] [v' H'].
  - exact (proj1 (ok_det _ _ _ _ _ _ H H')).
  - exact (proj1 (More_det _ _ _ _ _ H _ _ H')).
Qed.
Lemma Path_app l l' s m r : Path l s m -> Path l' m r -> Path (l ++ l') s r.
Proof. induction 1; cbn; intros; [assumption|]. econstructor; eauto. Qed.
Lemma InTurn_Path ts s r xs : InTurn ts s r xs -> Path (map Sy ts) s r.
Proof. induction 1; econstructor; eauto. eexists. eassumption. Qed.

(** [alts] covers [x]: every [x] begins as an alternative does, and where it is marked with [true] it ends there. *)
Definition Sound (x : sym) (alts : list (list sym * bool)) : Prop :=
  forall s m, step x s m -> exists l c r, In (l, c) alts /\ Path l s r /\ (c = true -> r = m).
Lemma one (t : rty) s r v : gives_ok t s r v -> Path [Sy t] s r.
Proof. intros H. econstructor; [exists v; exact H|constructor]. Qed.
Lemma sound_more t u : Sound (SMore t u) [([], true); ([Sy u; Sy t; SMore t u], true)].
Proof.
  intros s m [vs H]. inversion H; subst.
  - exists [], true, m. split; [left; reflexivity|]. split; [constructor|reflexivity].
  - exists [], true, m. split; [left; reflexivity|]. split; [constructor|reflexivity].
  - eexists _, true, m. split; [right; left; reflexivity|]. split; [|reflexivity].
    econstructor; [eexists; eassumption|]. econstructor; [eexists; eassumption|]. econstructor; [eexists; eassumption|constructor].
Qed.
Lemma sound_option t : Known t -> Sound (Sy (Ty "Option" [t])) [([Sy t], true); ([], true)].
Proof.
  intros K s m [v H]. apply (proj1 (option_gives _ K)) in H. destruct H as [(w & H & _)|(_ & -> & _)].
  - exists [Sy t], true, m. split; [left; reflexivity|]. split; [exact (one _ _ _ _ H)|reflexivity].
  - exists [], true, s. split; [right; left; reflexivity|]. split; [constructor|reflexivity].
Qed.
Lemma sound_box t : Known t -> Sound (Sy (Ty "Box" [t])) [([Sy t], true)].
Proof.
  intros K s m [v H]. apply (proj1 (box_gives _ K)) in H. destruct H as (w & H & _).
  exists [Sy t], true, m. split; [left; reflexivity|]. split; [exact (one _ _ _ _ H)|reflexivity].
Qed.
Lemma sound_tuple ts : Forall Known ts -> length ts = 2 \/ length ts = 3 -> Sound (Sy (TyTuple ts)) [(map Sy ts, true)].
Proof.
  intros K L s m [v H]. apply (proj1 (tuple_gives _ K L)) in H. destruct H as (w & H & _).
  exists (map Sy ts), true, m. split; [left; reflexivity|]. split; [exact (InTurn_Path _ _ _ _ H)|reflexivity].
Qed.
Lemma sound_vec t : Known t -> Consuming t -> Sound (Sy (Ty "Vec" [t])) [([Sy t], false); ([], true)].
Proof.
  intros K C s m [v H]. apply (proj1 (vec_gives _ K C)) in H. destruct H as (vs & H & _). inversion H; subst.
  - exists [], true, m. split; [right; left; reflexivity|]. split; [constructor|reflexivity].
  - eexists [Sy t], false, _. split; [left; reflexivity|]. split; [eapply one; eassumption|discriminate].
Qed.
Lemma sound_punctuated t c : Known t -> Consuming t -> Sound (Sy (Ty "Punctuated" [t; tterm c])) [([Sy t; SMore t (tterm c)], true); ([], true)].
Proof.
  intros K C s m [v H]. apply (proj1 (punctuated_gives t (tterm c) _ K C (known_modelled _ _ _ _ (M_term c)) (modelled_consuming _ _ _ _ (Imp_Modelled _ _ _ _ (M_term c)) (P_Impl _ _ _ (I_term c))) (default_term c))) in H.
  destruct H as [(_ & -> & _)|(m' & w & vs & H & H' & _)].
  - exists [], true, s. split; [right; left; reflexivity|]. split; [constructor|reflexivity].
  - eexists _, true, m. split; [left; reflexivity|]. split; [|reflexivity].
    econstructor; [eexists; eassumption|]. econstructor; [eexists; eassumption|constructor].
Qed.
Lemma sound_nonempty t c : Known t -> Consuming t ->
  Sound (Sy (Ty "PunctuatedNonEmpty" [t; tterm c])) [([Sy t; SMore t (tterm c)], true); ([Sy t; SMore t (tterm c); Sy (tterm c)], true)].
Proof.
  intros K C s m [v H]. apply (proj1 (nonempty_gives t (tterm c) _ K C (known_modelled _ _ _ _ (M_term c)) (modelled_consuming _ _ _ _ (Imp_Modelled _ _ _ _ (M_term c)) (P_Impl _ _ _ (I_term c))) (default_term c))) in H.
  destruct H as (m' & w & m'' & vs & H & H' & _ & [(x & U)|(_ & ->)]).
  - eexists _, true, m. split; [right; left; reflexivity|]. split; [|reflexivity].
    econstructor; [eexists; eassumption|]. econstructor; [eexists; eassumption|]. econstructor; [eexists; eassumption|constructor].
  - eexists _, true, m''. split; [left; reflexivity|]. split; [|reflexivity].
    econstructor; [eexists; eassumption|]. econstructor; [eexists; eassumption|constructor].
Qed.
Lemma sound_single : Sound (Sy (Ty "SingleArgument" [])) [(map Sy single_types, true); (map Sy (single_types ++ [Ty "Default" []]), true)].
Proof.
  intros s m [v H]. apply (proj1 single_gives) in H. destruct H as (m' & a & o & t & i & d & H & D & _). apply InTurn_Path in H.
  inversion D as [E E'|w r' d' E G]; subst.
  - exists (map Sy single_types), true, m. split; [left; reflexivity|]. auto.
  - apply (proj1 (option_gives (Ty "Default" []) ltac:(known))) in G. destruct G as [(x & G & _)|(_ & -> & _)].
    + eexists _, true, m. split; [right; left; reflexivity|]. split; [|reflexivity]. rewrite map_app. eapply Path_app; [exact H|]. exact (one _ _ _ _ G).
    + exists (map Sy single_types), true, m'. split; [left; reflexivity|]. auto.
Qed.
Lemma sound_noargs : Sound (Sy (Ty "ExtendedAttributeNoArgs" [])) [([Sy (Ty "Identifier" [])], true)].
Proof.
  intros s m [v H]. apply (proj1 noargs_gives) in H. destruct H as (w & H & _).
  eexists _, true, m. split; [left; reflexivity|]. split; [exact (one _ _ _ _ H)|reflexivity].
Qed.
Lemma modelled_runs t A P enc s r v : ImplFor t A P enc -> gives_ok t s r v -> exists a, P s = Ok r a /\ v = enc a.
Proof.
  intros H G. destruct (implements_source _ _ _ _ H s) as [N HN]. pose proof (Gives_det _ _ _ _ G (ex_intro _ N HN)) as E.
  destruct (P s) as [r' a|e|] eqn:EP; cbn [answer] in E; try discriminate E. injection E as -> ->. eauto.
Qed.
(** Declarations of structs and variants. *)
Definition fields (x : string) (args : list rty) : option (list rty) :=
  match find (fun i => match i with IStruct _ y _ _ => String.eqb x y | _ => false end) structs with
  | Some (IStruct _ _ vs fs) =>
      if Nat.eqb (length args) (length vs) && negb (existsb (String.eqb x) by_hand) && negb (is_terminal x) then Some (map (fun f => subst (combine vs args) (snd f)) fs) else None
  | _ => None
  end.
Definition variants (x : string) : option (list rty) :=
  match find (fun i => match i with IEnum _ y _ => String.eqb x y | _ => false end) enums with Some (IEnum _ _ vs) => Some (map snd vs) | _ => None end.
Lemma structs_are : structs = filter (fun i => match i with IStruct _ _ _ _ => true | _ => false end) crate_items.
Proof. vm_cast_no_check (eq_refl structs). Qed.
Lemma sound_struct x args ts : fields x args = Some ts -> Forall (fun u => exists A p enc, Modelled u A p enc) args -> Sound (Sy (Ty x args)) [(map Sy ts, true)].
Proof.
  unfold fields. destruct (find _ structs) as [i|] eqn:E; [|discriminate]. apply find_some in E. destruct E as [E1 E2].
  destruct i as [ds y vs fs| | | | | |]; try discriminate E2. apply String.eqb_eq in E2. subst y.
  destruct (Nat.eqb _ _) eqn:L; [|discriminate]. destruct (existsb _ by_hand) eqn:B; [discriminate|]. destruct (is_terminal x) eqn:T; [discriminate|].
  intros [= <-] M s m [v H]. apply Nat.eqb_eq in L. rewrite structs_are in E1. apply filter_In in E1. destruct E1 as [E1 _].
  apply (proj1 (struct_in_turn _ _ _ _ _ E1 B T L M)) in H. destruct H as (xs & H & _).
  eexists _, true, m. split; [left; reflexivity|]. split; [exact (InTurn_Path _ _ _ _ H)|reflexivity].
Qed.
Lemma sound_enum x ts : variants x = Some ts -> Sound (Sy (Ty x [])) (map (fun u => ([Sy u], true)) ts).
Proof.
  unfold variants. destruct (find _ enums) as [i|] eqn:E; [|discriminate]. apply find_some in E. destruct E as [E1 E2].
  destruct i as [|ds y vs| | | | |]; try discriminate E2. apply String.eqb_eq in E2. subst y. intros [= <-] s m [v H].
  apply enums_are in E1. destruct E1 as [E1 _]. apply (proj1 (enum_first _ _ _ E1)) in H.
  assert (F : exists w t a, In (w, t) vs /\ gives_ok t s m a).
  { clear -H. induction H as [w t vs r a H|w t vs p k r a _ _ (w' & t' & a' & H & H')].
    - exists w, t, a. split; [left; reflexivity|exact H].
    - exists w', t', a'. split; [right; exact H|exact H']. }
  destruct F as (w & t & a & F & G). exists [Sy t], true, m. split; [|split; [exact (one _ _ _ _ G)|reflexivity]].
  apply in_map_iff. exists t. split; [reflexivity|]. apply in_map_iff. exists (w, t). auto.
Qed.
Lemma term_runs c s r v : gives_ok (tterm c) s r v <-> p_term c s = Ok r Datatypes.tt /\ v = vt (term_type c).
Proof.
  split.
  - intros H. destruct (modelled_runs _ _ _ _ _ _ _ (Imp_Modelled _ _ _ _ (M_term c)) H) as ([] & E & ->). split; [exact E|reflexivity].
  - intros [E ->]. exact (modelled_gives_ok _ _ _ _ _ _ _ _ (Imp_Modelled _ _ _ _ (M_term c)) E eq_refl).
Qed.
Lemma sound_boolean : Sound (Sy (Ty "BooleanLit" [])) [([Sy (tterm True_)], true); ([Sy (tterm False_)], true)].
Proof.
  intros s m [v H]. destruct (modelled_runs _ _ _ _ _ _ _ Imp_BooleanLit H) as (b & E & _). unfold p_BooleanLit, alt_or, pmap, bind, ret in E.
  destruct (p_term True_ s) as [r []|[]|] eqn:E1; cbv beta iota in E; try discriminate E.
  - injection E as -> _. eexists _, true, m. split; [left; reflexivity|]. split; [|reflexivity].
    eapply one. apply (proj2 (term_runs _ _ _ _)). split; [exact E1|reflexivity].
  - destruct (p_term False_ s) as [r []|[]|] eqn:E2; cbv beta iota in E; try discriminate E.
    injection E as -> _. eexists _, true, m. split; [right; left; reflexivity|]. split; [|reflexivity].
    eapply one. apply (proj2 (term_runs _ _ _ _)). split; [exact E2|reflexivity].
Qed.

(** ** Leaves *)
Inductive leaf : Set := LTerm (c : term) | LIdent | LStr | LDec | LHex | LOct | LFloat.
Definition leaf_of (t : rty) : option leaf :=
  match t with
  | Ty x [] =>
      match find_term x with
      | Some c => Some (LTerm c)
      | None => lookup x [("Identifier", LIdent); ("StringLit", LStr); ("DecLit", LDec); ("HexLit", LHex); ("OctLit", LOct); ("FloatValueLit", LFloat)]
      end
  | _ => None
  end.
Definition LexemeOf (l : leaf) (x : text) : Prop :=
  match l with
  | LTerm c => x = str (term_text c)
  | LIdent => exists u n, x = u ++ n /\ (u = [] \/ u = [95%N]) /\ NameLex n
  | LStr => exists n, x = 34%N :: n
  | LDec => DecLex x
  | LHex => HexLex x
  | LOct => OctLex x
  | LFloat => FloatLex x
  end.
Lemma leaf_type t l : leaf_of t = Some l ->
  match l with
  | LTerm c => t = tterm c
  | LIdent => t = Ty "Identifier" [] | LStr => t = Ty "StringLit" [] | LDec => t = Ty "DecLit" [] | LHex => t = Ty "HexLit" []
  | LOct => t = Ty "OctLit" [] | LFloat => t = Ty "FloatValueLit" []
  end.
Proof.
  destruct t as [x [|? ?]|]; try discriminate. cbn [leaf_of]. destruct (find_term x) as [c|] eqn:E.
  - intros [= <-]. apply find_some in E. destruct E as [_ E]. apply String.eqb_eq in E. subst x. reflexivity.
  - cbn [lookup]. repeat (lazymatch goal with |- context [String.eqb ?a ?b] => destruct (String.eqb_spec a b) as [->|?] end; [intros [= <-]; reflexivity|]). discriminate.
Qed.
Lemma leaf_reads t l s r v : leaf_of t = Some l -> gives_ok t s r v ->
  exists w x y, s = w ++ x ++ y /\ Blank w /\ NoBlank (x ++ y) /\ LexemeOf l x.
Proof.
  intros L H. pose proof (leaf_type _ _ L) as T. destruct l as [c| | | | | | ]; subst t.
  - apply (proj1 (term_runs _ _ _ _)) in H. destruct H as [H _]. apply p_term_text in H. destruct H as (w & w' & E & Hw & Hn).
    exists w, (str (term_text c)), (w' ++ r). cbn. auto.
  - destruct (modelled_runs _ _ _ _ _ _ _ (Imp_Modelled _ _ _ _ M_Identifier) H) as (n & E & _). change (p_Identifier s = Ok r n) in E.
    apply p_Identifier_ok in E. destruct E as (w & u & w' & E & Hw & Hu & Hn & _). exists w, (u ++ n), (w' ++ r). rewrite <- app_assoc.
    split; [exact E|]. split; [exact Hw|]. split; [|exists u, n; auto].
    destruct Hn as (c & z & -> & Hc & _). destruct Hu as [-> | ->]; apply NoBlank_head; try (intros [A|[A|[A|A]]]; discriminate A); try discriminate.
    + intros B. unfold letter, blank_char in *. lia.
    + intros ->. unfold letter in *. lia.
  - destruct (modelled_runs _ _ _ _ _ _ _ (Imp_Modelled _ _ _ _ M_StringLit) H) as (n & E & _). change (p_StringLit s = Ok r n) in E.
    apply p_StringLit_ok in E. destruct E as (w & w' & E & Hw & _). exists w, (34%N :: n), (34%N :: w' ++ r). split; [exact E|]. split; [exact Hw|].
    split; [|exists n; reflexivity]. apply NoBlank_head; [unfold blank_char; lia|discriminate].
  - destruct (modelled_runs _ _ _ _ _ _ _ Imp_DecLit H) as (n & E & _). apply p_DecLit_longest in E. destruct E as (w & w' & E & Hw & (_ & HL & _) & _).
    exists w, n, (w' ++ r). split; [exact E|]. split; [exact Hw|]. split; [apply NumLex_NoBlank; unfold NumLex; tauto|exact HL].
  - destruct (modelled_runs _ _ _ _ _ _ _ Imp_HexLit H) as (n & E & _). apply p_HexLit_longest in E. destruct E as (w & w' & E & Hw & (_ & HL & _) & _).
    exists w, n, (w' ++ r). split; [exact E|]. split; [exact Hw|]. split; [apply NumLex_NoBlank; unfold NumLex; tauto|exact HL].
  - destruct (modelled_runs _ _ _ _ _ _ _ Imp_OctLit H) as (n & E & _). apply p_OctLit_longest in E. destruct E as (w & w' & E & Hw & (_ & HL & _) & _).
    exists w, n, (w' ++ r). split; [exact E|]. split; [exact Hw|]. split; [apply NumLex_NoBlank; unfold NumLex; tauto|exact HL].
  - destruct (modelled_runs _ _ _ _ _ _ _ Imp_FloatValueLit H) as (n & E & _). apply p_FloatValueLit_longest in E. destruct E as (w & w' & E & Hw & (_ & HL & _) & _).
    exists w, n, (w' ++ r). split; [exact E|]. split; [exact Hw|]. split; [apply NumLex_NoBlank; unfold NumLex; tauto|exact HL].
Qed.
(** The characters that a lexeme begins with. *)
Definition letters : list N := map N.of_nat (seq 65 26 ++ seq 97 26).
Definition first (l : leaf) : list N :=
  match l with
  | LTerm c => firstn 1 (str (term_text c))
  | LIdent => 95%N :: letters
  | LStr => [34%N]
  | LDec => 45%N :: map N.of_nat (seq 49 9)
  | LHex | LOct => [45%N; 48%N]
  | LFloat => 45%N :: 46%N :: map N.of_nat (seq 48 10)
  end.
Lemma in_codes c a n : (N.of_nat a <= c)%N -> (c < N.of_nat (a + n))%N -> In c (map N.of_nat (seq a n)).
Proof. intros H H'. apply in_map_iff. exists (N.to_nat c). split; [apply N2Nat.id|]. apply in_seq. lia. Qed.
Lemma first_ok l x : LexemeOf l x -> exists c y, x = c :: y /\ In c (first l).
Proof.
  destruct l as [c| | | | | | ]; cbn [LexemeOf first].
  - intros ->. destruct c; eexists _, _; (split; [reflexivity|left; reflexivity]).
  - intros (u & n & -> & Hu & (c & w & -> & Hc & _)). destruct Hu as [-> | ->]; eexists _, _; (split; [reflexivity|]); [right|left; reflexivity].
    unfold letters. rewrite map_app. apply in_app_iff. destruct Hc as [Hc|Hc]; [left|right]; apply in_codes; lia.
  - intros [n ->]. eexists _, _. split; [reflexivity|left; reflexivity].
  - intros (m & d & w & -> & Hm & Hd & _). destruct Hm as [-> | ->]; eexists _, _; (split; [reflexivity|]); [right; apply in_codes; lia|left; reflexivity].
  - intros (m & d & w & -> & Hm & _). destruct Hm as [-> | ->]; eexists _, _; (split; [reflexivity|]); [right; left; reflexivity|left; reflexivity].
  - intros (m & w & -> & Hm & _). destruct Hm as [-> | ->]; eexists _, _; (split; [reflexivity|]); [right; left; reflexivity|left; reflexivity].
  - intros (m & b & -> & Hm & Hb). destruct Hm as [-> | ->]; [|eexists _, _; split; [reflexivity|left; reflexivity]].
    assert (D : forall w c y, w <> [] -> Forall digit w -> w ++ c = y -> exists d z, y = d :: z /\ In d (map N.of_nat (seq 48 10))).
    { intros [|d w] c y Hw Hd <-; [congruence|]. inversion Hd as [|? ? K _]; subst. eexists _, _. split; [reflexivity|]. unfold digit in K. apply in_codes; lia. }
    destruct Hb as [(w1 & w2 & x & -> & H1 & H2 & Hn & _)|(w & x & -> & Hw & Hd & _)].
    + destruct w1 as [|d w1]; [eexists _, _; split; [reflexivity|right; left; reflexivity]|].
      destruct (D (d :: w1) (46%N :: w2 ++ x) _ ltac:(discriminate) H1 eq_refl) as (e & z & E & He). exists e, z. split; [exact E|right; right; exact He].
    + destruct (D w x _ Hw Hd eq_refl) as (e & z & E & He). exists e, z. split; [exact E|right; right; exact He].
Qed.
(** Two leaves that no text begins with both of. *)
Definition odd : list (term * term) := [(Dot, Ellipsis); (Ellipsis, Dot); (Minus, NegInfinity); (NegInfinity, Minus)].
Definition term_eqb (a b : term) : bool := String.eqb (term_text a) (term_text b).
Definition apart (a b : leaf) : bool :=
  match a, b with
  | LTerm c, LTerm d => negb (term_eqb c d) && negb (existsb (fun p => term_eqb c (fst p) && term_eqb d (snd p)) odd)
  | LDec, LHex | LDec, LOct | LHex, LDec | LOct, LDec => true
  | LFloat, LTerm c | LTerm c, LFloat => term_eqb c NegInfinity || negb (existsb (fun c => existsb (N.eqb c) (first b)) (first a))
  | _, _ => negb (existsb (fun c => existsb (N.eqb c) (first b)) (first a))
  end.
Lemma term_eqb_refl c : term_eqb c c = true.
Proof. apply String.eqb_refl. Qed.
Lemma float_not_inf x y y' : FloatLex x -> x ++ y <> str (term_text NegInfinity) ++ y'.
Proof.
  intros (m & b & -> & Hm & Hb) E. rewrite <- app_assoc in E.
  assert (D : forall w c z y, w <> [] -> Forall digit w -> (w ++ c) ++ z = 73%N :: y -> False).
  { intros [|d w] c z y0 Hw Hd E'; [congruence|]. injection E' as -> _. inversion Hd as [|? ? K _]; subst. unfold digit in K. lia. }
  assert (B : exists z, b ++ y = 73%N :: z).
  { destruct Hm as [-> | ->]; cbn in E; [|injection E as E; eauto].
    exfalso. destruct Hb as [(w1 & w2 & x & -> & H1 & H2 & Hn & _)|(w & x & -> & Hw & Hd & _)].
    - destruct w1 as [|d w1]; [discriminate E|]. injection E as -> _. inversion H1 as [|? ? K _]; subst. unfold digit in K. lia.
    - destruct w as [|d w]; [congruence|]. injection E as -> _. inversion Hd as [|? ? K _]; subst. unfold digit in K. lia. }
  destruct B as [z B]. destruct Hb as [(w1 & w2 & x & -> & H1 & H2 & Hn & _)|(w & x & -> & Hw & Hd & _)].
  - destruct w1 as [|d w1]; [discriminate B|]. eapply (D (d :: w1)); [discriminate|exact H1|exact B].
  - eapply D; [exact Hw|exact Hd|exact B].
Qed.
Lemma apart_ok t u a b s r r' v v' : leaf_of t = Some a -> leaf_of u = Some b -> apart a b = true -> gives_ok t s r v -> gives_ok u s r' v' -> False.
Proof.
  intros La Lb H Ht Hu.
  assert (G : exists x y x' y', x ++ y = x' ++ y' /\ LexemeOf a x /\ LexemeOf b x').
  { destruct (leaf_reads _ _ _ _ _ La Ht) as (w & x & y & E & Hw & Hn & Hx). destruct (leaf_reads _ _ _ _ _ Lb Hu) as (w' & x' & y' & E' & Hw' & Hn' & Hx').
    rewrite E in E'. destruct (Blank_unique _ Hw _ _ _ Hw' Hn Hn' E') as [_ E2]. eauto 10. }
  destruct G as (x & y & x' & y' & E & Hx & Hx').
  assert (F : negb (existsb (fun c => existsb (N.eqb c) (first b)) (first a)) = true -> False).
  { intros N. destruct (first_ok _ _ Hx) as (c & z & -> & Hc). destruct (first_ok _ _ Hx') as (c' & z' & -> & Hc'). injection E as <- _.
    apply negb_true_iff in N. assert (Y : existsb (fun c => existsb (N.eqb c) (first b)) (first a) = true); [|congruence].
    apply existsb_exists. exists c. split; [exact Hc|]. apply existsb_exists. exists c. split; [exact Hc'|apply N.eqb_refl]. }
  destruct a as [c| | | | | | ], b as [d| | | | | | ]; try exact (F H);
  try solve [eapply dec_disjoint; [exact Hx| |exact E]; auto]; try solve [eapply dec_disjoint; [exact Hx'| |symmetry; exact E]; auto].
  - pose proof (leaf_type _ _ La) as Ta. pose proof (leaf_type _ _ Lb) as Tb. cbn in Ta, Tb. subst t u.
    apply (proj1 (term_runs _ _ _ _)) in Ht. apply (proj1 (term_runs _ _ _ _)) in Hu. destruct Ht as [Ht _], Hu as [Hu _].
    cbn [apart] in H. apply andb_prop in H. destruct H as [H1 H2]. destruct (terms_exclusive _ _ _ _ _ _ _ Ht Hu) as [->|K].
    + rewrite term_eqb_refl in H1. discriminate H1.
    + apply negb_true_iff in H2. assert (Y : existsb (fun p => term_eqb c (fst p) && term_eqb d (snd p)) odd = true); [|congruence].
      apply existsb_exists. exists (c, d). split; [exact K|]. cbn [fst snd]. rewrite !term_eqb_refl. reflexivity.
  - cbn [apart] in H. apply orb_prop in H. destruct H as [H|H]; [|exact (F H)]. apply String.eqb_eq, term_text_inj in H. subst c. cbn [LexemeOf] in Hx. subst x. exact (float_not_inf _ _ _ Hx' (eq_sym E)).
  - cbn [apart] in H. apply orb_prop in H. destruct H as [H|H]; [|exact (F H)]. apply String.eqb_eq, term_text_inj in H. subst d. cbn [LexemeOf] in Hx'. subst x'. exact (float_not_inf _ _ _ Hx E).
Qed.
(** A keyword that is read as an identifier ends in the same place. *)
Definition same_end (a b : leaf) : bool :=
  match a, b with LTerm c, LIdent | LIdent, LTerm c => term_is_name c | _, _ => false end.
Lemma keyword_ident c s r r' n : term_is_name c = true -> p_term c s = Ok r Datatypes.tt -> p_Identifier s = Ok r' n -> r = r'.
Proof.
  intros H E E'. apply p_Identifier_At in E'. destruct E' as [e E']. assert (N : not_minus_dot c) by (destruct c; try exact Logic.I; discriminate H).
  apply p_term_At in E; [|exact N]. exact (proj2 (At_det _ _ _ _ _ E E')).
Qed.
Lemma same_end_ok t u a b s r r' v v' : leaf_of t = Some a -> leaf_of u = Some b -> same_end a b = true -> gives_ok t s r v -> gives_ok u s r' v' -> r = r'.
Proof.
  intros La Lb H Ht Hu. pose proof (leaf_type _ _ La) as Ta. pose proof (leaf_type _ _ Lb) as Tb.
  destruct a as [c| | | | | | ], b as [d| | | | | | ]; try discriminate H; cbn in Ta, Tb, H; subst t u.
  - apply (proj1 (term_runs _ _ _ _)) in Ht. destruct Ht as [Ht _].
    destruct (modelled_runs _ _ _ _ _ _ _ (Imp_Modelled _ _ _ _ M_Identifier) Hu) as (n & E & _). exact (keyword_ident _ _ _ _ _ H Ht E).
  - apply (proj1 (term_runs _ _ _ _)) in Hu. destruct Hu as [Hu _].
    destruct (modelled_runs _ _ _ _ _ _ _ (Imp_Modelled _ _ _ _ M_Identifier) Ht) as (n & E & _). symmetry. exact (keyword_ident _ _ _ _ _ H Hu E).
Qed.

(** ** Following the declarations *)
(** How a symbol begins. *)
Definition expand0 (x : sym) : option (list (list sym * bool)) :=
  match x with
  | SMore t u => Some [([], true); ([Sy u; Sy t; SMore t u], true)]
  | Sy (TyTuple ts) => Some [(map Sy ts, true)]
  | Sy (Ty "Option" [t]) => Some [([Sy t], true); ([], true)]
  | Sy (Ty "Box" [t]) => Some [([Sy t], true)]
  | Sy (Ty "Vec" [t]) => Some [([Sy t], false); ([], true)]
  | Sy (Ty "Punctuated" [t; u]) => Some [([Sy t; SMore t u], true); ([], true)]
  | Sy (Ty "PunctuatedNonEmpty" [t; u]) => Some [([Sy t; SMore t u], true); ([Sy t; SMore t u; Sy u], true)]
  | Sy (Ty "SingleArgument" []) => Some [(map Sy single_types, true); (map Sy (single_types ++ [Ty "Default" []]), true)]
  | Sy (Ty "ExtendedAttributeNoArgs" []) => Some [([Sy (Ty "Identifier" [])], true)]
  | Sy (Ty "BooleanLit" []) => Some [([Sy (tterm True_)], true); ([Sy (tterm False_)], true)]
  | Sy (Ty x args) =>
      match fields x args with
      | Some ts => Some [(map Sy ts, true)]
      | None => match args with [] => match variants x with Some ts => Some (map (fun u => ([Sy u], true)) ts) | None => None end | _ => None end
      end
  end.
Definition sym_eqb (x y : sym) : bool :=
  match x, y with Sy t, Sy u => rty_eqb t u | SMore t u, SMore t' u' => rty_eqb t t' && rty_eqb u u' | _, _ => false end.
(** Everything that is met from the variants on. *)
Fixpoint close (fuel : nat) (done todo : list sym) : list sym :=
  match fuel, todo with
  | S f, x :: rest =>
      if existsb (sym_eqb x) done then close f done rest
      else close f (x :: done) (match expand0 x with Some alts => flat_map fst alts | None => [] end ++ rest)
  | _, _ => done
  end.
Definition syms : list sym := Eval vm_compute in
  close 3000 [] (flat_map (fun i => match i with IEnum _ _ vs => map (fun v => Sy (snd v)) vs | _ => [] end) enums).
Definition index (x : sym) : nat :=
  (fix go (l : list sym) (k : nat) : nat := match l with [] => k | y :: l' => if sym_eqb x y then k else go l' (S k) end) syms 0.
(** The symbols by number, with their alternatives.  The rank says what is followed first. *)
Inductive entry : Set := Leaf (l : leaf) | Node (rank : nat) (alts : list (list nat * bool)) | Dead.
Definition rank (x : sym) : nat :=
  match x with
  | Sy (Ty x _) =>
      match lookup x [("Option", 100); ("AttributedType", 50); ("ReturnType", 49); ("Type", 48); ("SingleType", 47); ("UnionMemberType", 40);
                      ("AttributedNonAnyType", 39); ("RecordKeyType", 30); ("NonAnyType", 20); ("ConstType", 20); ("MayBeNull", 5)] with
      | Some k => k
      | None => 60
      end
  | _ => 70
  end.
Definition table : list entry := Eval vm_compute in
  map (fun x => match (match x with Sy t => leaf_of t | _ => None end) with
                | Some l => Leaf l
                | None => match expand0 x with Some alts => Node (rank x) (map (fun a => (map index (fst a), snd a)) alts) | None => Dead end
                end) syms.
Definition den (i : nat) : sym := nth i syms (Sy (TyTuple [])).
Fixpoint excl (n : nat) (ts us : list nat) : bool :=
  match n with
  | 0 => false
  | S n =>
      match ts, us with
      | t :: ts', u :: us' =>
          if Nat.eqb t u then excl n ts' us'
          else
            let left alts := forallb (fun a : list nat * bool => excl n (if snd a then fst a ++ ts' else fst a) us) alts in
            let right alts := forallb (fun a : list nat * bool => excl n ts (if snd a then fst a ++ us' else fst a)) alts in
            match nth t table Dead, nth u table Dead with
            | Leaf a, Leaf b => if apart a b then true else if same_end a b then excl n ts' us' else false
            | Node _ alts, Leaf _ => left alts
            | Leaf _, Node _ alts => right alts
            | Node j alts, Node k alts' => if Nat.leb k j then left alts else right alts'
            | _, _ => false
            end
      | _, _ => false
      end
  end.
(** The table is right. *)
Definition ok_entry (x : sym) (e : entry) : Prop :=
  match e with
  | Leaf l => match x with Sy t => leaf_of t = Some l | _ => False end
  | Node _ alts => Sound x (map (fun a => (map den (fst a), snd a)) alts)
  | Dead => True
  end.
Lemma consuming_impl t A p enc : Modelled t A p enc -> Impl true A p -> Consuming t.
Proof. intros H H'. eapply modelled_consuming; [apply Imp_Modelled; exact H|apply P_Impl; exact H']. Qed.
Ltac consuming := eapply consuming_impl; [modelled|constructor].
Ltac sound :=
  lazymatch goal with
  | |- Sound (SMore _ _) _ => apply sound_more
  | |- Sound (Sy (TyTuple _)) _ => apply sound_tuple; [repeat (apply Forall_cons; [known|]); apply Forall_nil|vm_compute; auto]
  | |- Sound (Sy (Ty "Option" _)) _ => apply sound_option; known
  | |- Sound (Sy (Ty "Box" _)) _ => apply sound_box; known
  | |- Sound (Sy (Ty "Vec" _)) _ => apply sound_vec; [known|consuming]
  | |- Sound (Sy (Ty "Punctuated" [?t; Ty ?s []])) _ =>
      let o := eval vm_compute in (find_term s) in lazymatch o with Some ?c => apply (sound_punctuated t c); [known|consuming] end
  | |- Sound (Sy (Ty "PunctuatedNonEmpty" [?t; Ty ?s []])) _ =>
      let o := eval vm_compute in (find_term s) in lazymatch o with Some ?c => apply (sound_nonempty t c); [known|consuming] end
  | |- Sound (Sy (Ty "SingleArgument" [])) _ => apply sound_single
  | |- Sound (Sy (Ty "ExtendedAttributeNoArgs" [])) _ => apply sound_noargs
  | |- Sound (Sy (Ty "BooleanLit" [])) _ => apply sound_boolean
  | |- Sound (Sy (Ty ?x ?args)) ?a =>
      let o := eval vm_compute in (fields x args) in
      lazymatch o with
      | Some ?ts => change (Sound (Sy (Ty x args)) [(map Sy ts, true)]); apply sound_struct;
                    [vm_compute; reflexivity|repeat (apply Forall_cons; [do 3 eexists; modelled|]); apply Forall_nil]
      | None => let o := eval vm_compute in (variants x) in
                lazymatch o with Some ?ts => change (Sound (Sy (Ty x [])) (map (fun u => ([Sy u], true)) ts)); apply sound_enum; vm_compute; reflexivity end
      end
  end.
Ltac entry_ok :=
  lazymatch goal with
  | |- ok_entry (Sy ?t) (Leaf ?l) => unfold ok_entry; vm_compute; reflexivity
  | |- ok_entry ?x (Node ?k ?alts) => let a := eval vm_compute in (map (fun a => (map den (fst a), snd a)) alts) in change (Sound x a); sound
  end.
Ltac halves :=
  lazymatch goal with
  | |- Forall2 _ [] [] => apply Forall2_nil
  | |- Forall2 _ [_] [_] => apply Forall2_cons; [entry_ok|apply Forall2_nil]
  | |- Forall2 ?P ?l ?m =>
      let n := eval vm_compute in (Nat.div2 (length l)) in
      let l1 := eval vm_compute in (firstn n l) in let l2 := eval vm_compute in (skipn n l) in
      let m1 := eval vm_compute in (firstn n m) in let m2 := eval vm_compute in (skipn n m) in
      change (Forall2 P (l1 ++ l2) (m1 ++ m2)); apply Forall2_app; halves
  end.
Lemma table_ok : Forall2 ok_entry syms table.
Proof. unfold syms, table. halves. Qed.
Lemma entry_at i : i < length syms -> ok_entry (den i) (nth i table Dead).
Proof.
  unfold den. generalize table_ok. generalize syms table. intros l m H. revert i. induction H as [|x e l m H _ IH]; intros i Hi; cbn in Hi; [lia|].
  destruct i as [|i]; [exact H|]. apply IH. lia.
Qed.
Lemma table_length : length table = length syms.
Proof. vm_compute. reflexivity. Qed.
Lemma entry_node i k alts : nth i table Dead = Node k alts -> Sound (den i) (map (fun a => (map den (fst a), snd a)) alts).
Proof.
  intros E. destruct (le_lt_dec (length syms) i) as [H|H].
  - rewrite nth_overflow in E; [discriminate E|]. rewrite table_length. exact H.
  - pose proof (entry_at i H) as K. rewrite E in K. exact K.
Qed.
Lemma entry_leaf i l : nth i table Dead = Leaf l -> exists t, den i = Sy t /\ leaf_of t = Some l.
Proof.
  intros E. destruct (le_lt_dec (length syms) i) as [H|H].
  - rewrite nth_overflow in E; [discriminate E|]. rewrite table_length. exact H.
  - pose proof (entry_at i H) as K. rewrite E in K. cbn [ok_entry] in K. destruct (den i) as [t|]; [eauto|contradiction].
Qed.
(** No text begins with both. *)
Theorem excl_ok n : forall ts us, excl n ts us = true -> forall s r r', Path (map den ts) s r -> Path (map den us) s r' -> False.
Proof.
  induction n as [|n IH]; intros ts us; cbn [excl]; [discriminate|]. destruct ts as [|t ts]; [discriminate|]. destruct us as [|u us]; [discriminate|].
  destruct (Nat.eqb t u) eqn:E.
  - apply Nat.eqb_eq in E. subst u. intros H s r r' P Q. cbn [map] in P, Q. inversion P; inversion Q; subst.
    match goal with A : step _ s ?m, B : step _ s ?m' |- _ => pose proof (step_det _ _ _ _ A B); subst m' end. eapply IH; eassumption.
  - assert (L : forall k alts, nth t table Dead = Node k alts -> forallb (fun a : list nat * bool => excl n (if snd a then fst a ++ ts else fst a) (u :: us)) alts = true ->
        forall s r r', Path (map den (t :: ts)) s r -> Path (map den (u :: us)) s r' -> False).
    { intros k alts N F s r r' P Q. cbn [map] in P. inversion P as [|? ? ? m ? S' P']; subst. destruct (entry_node _ _ _ N _ _ S') as (l & c & q & Hl & Hp & Hc).
      apply in_map_iff in Hl. destruct Hl as ([is b] & E1 & Hl). injection E1 as <- <-. rewrite forallb_forall in F. specialize (F _ Hl). cbn [fst snd] in F.
      destruct b; [rewrite (Hc eq_refl) in Hp|]; (eapply IH; [exact F| |exact Q]); [rewrite map_app; eapply Path_app; eassumption|exact Hp]. }
    assert (R : forall k alts, nth u table Dead = Node k alts -> forallb (fun a : list nat * bool => excl n (t :: ts) (if snd a then fst a ++ us else fst a)) alts = true ->
        forall s r r', Path (map den (t :: ts)) s r -> Path (map den (u :: us)) s r' -> False).
    { intros k alts N F s r r' Q P. cbn [map] in P. inversion P as [|? ? ? m ? S' P']; subst. destruct (entry_node _ _ _ N _ _ S') as (l & c & q & Hl & Hp & Hc).
      apply in_map_iff in Hl. destruct Hl as ([is b] & E1 & Hl). injection E1 as <- <-. rewrite forallb_forall in F. specialize (F _ Hl). cbn [fst snd] in F.
      destruct b; [rewrite (Hc eq_refl) in Hp|]; (eapply IH; [exact F|exact Q|]); [rewrite map_app; eapply Path_app; eassumption|exact Hp]. }
    destruct (nth t table Dead) as [a|j alts| ] eqn:Et; destruct (nth u table Dead) as [b|k alts'| ] eqn:Eu; try discriminate.
    + destruct (entry_leaf _ _ Et) as (t' & Dt & La). destruct (entry_leaf _ _ Eu) as (u' & Du & Lb). intros H s r r' P Q. cbn [map] in P, Q. rewrite Dt in P. rewrite Du in Q.
      inversion P as [|? ? ? m ? S1 P']; inversion Q as [|? ? ? m' ? S2 Q']; subst. destruct S1 as [v Hv]. destruct S2 as [v' Hv']. destruct (apart a b) eqn:A; [exact (apart_ok _ _ _ _ _ _ _ _ _ La Lb A Hv Hv')|].
      destruct (same_end a b) eqn:B; [|discriminate H]. pose proof (same_end_ok _ _ _ _ _ _ _ _ _ La Lb B Hv Hv'). subst m'. exact (IH _ _ H _ _ _ P' Q').
    + apply (R _ _ eq_refl).
    + apply (L _ _ eq_refl).
    + destruct (Nat.leb k j); [apply (L _ _ eq_refl)|apply (R _ _ eq_refl)].
Qed.

(** ** All pairs of variants *)
(** The pairs of variants that begin the same text, with such a text. *)
Definition overlap_texts : list (string * string * string * string) :=
  [("ExtendedAttribute", "ArgList", "NoArgs", "A(long x)");
   ("ExtendedAttribute", "NamedArgList", "Ident", "A=B(long x)");
   ("ExtendedAttribute", "NamedArgList", "NoArgs", "A=B(long x)");
   ("ExtendedAttribute", "IdentList", "NoArgs", "A=(B)");
   ("ExtendedAttribute", "Ident", "NoArgs", "A=B");
   ("ExtendedAttribute", "Wildcard", "NoArgs", "A=*");
   ("InterfaceMember", "Constructor", "Operation", "constructor();");
   ("IntegerLit", "Hex", "Oct", "0x1");
   ("DefaultValue", "Float", "Integer", "1.5");
   ("ConstValue", "Float", "Integer", "1.5");
   ("SingleType", "Any", "NonAny", "any");
   ("NonAnyType", "Promise", "Identifier", "Promise<any>");
   ("NonAnyType", "Integer", "Identifier", "long");
   ("NonAnyType", "FloatingPoint", "Identifier", "float");
   ("NonAnyType", "Boolean", "Identifier", "boolean");
   ("NonAnyType", "Byte", "Identifier", "byte");
   ("NonAnyType", "Octet", "Identifier", "octet");
   ("NonAnyType", "ByteString", "Identifier", "ByteString");
   ("NonAnyType", "DOMString", "Identifier", "DOMString");
   ("NonAnyType", "USVString", "Identifier", "USVString");
   ("NonAnyType", "Sequence", "Identifier", "sequence<any>");
   ("NonAnyType", "Object", "Identifier", "object");
   ("NonAnyType", "Symbol", "Identifier", "symbol");
   ("NonAnyType", "Error", "Identifier", "Error");
   ("NonAnyType", "ArrayBuffer", "Identifier", "ArrayBuffer");
   ("NonAnyType", "DataView", "Identifier", "DataView");
   ("NonAnyType", "Int8Array", "Identifier", "Int8Array");
   ("NonAnyType", "Int16Array", "Identifier", "Int16Array");
   ("NonAnyType", "Int32Array", "Identifier", "Int32Array");
   ("NonAnyType", "Uint8Array", "Identifier", "Uint8Array");
   ("NonAnyType", "Uint16Array", "Identifier", "Uint16Array");
   ("NonAnyType", "Uint32Array", "Identifier", "Uint32Array");
   ("NonAnyType", "Uint8ClampedArray", "Identifier", "Uint8ClampedArray");
   ("NonAnyType", "Float32Array", "Identifier", "Float32Array");
   ("NonAnyType", "Float64Array", "Identifier", "Float64Array");
   ("NonAnyType", "ArrayBufferView", "Identifier", "ArrayBufferView");
   ("NonAnyType", "BufferSource", "Identifier", "BufferSource");
   ("NonAnyType", "FrozenArrayType", "Identifier", "FrozenArray<any>");
   ("NonAnyType", "RecordType", "Identifier", "record<DOMString, any>");
   ("IntegerType", "LongLong", "Long", "long long");
   ("RecordKeyType", "Byte", "NonAny", "ByteString");
   ("RecordKeyType", "DOM", "NonAny", "DOMString");
   ("RecordKeyType", "USV", "NonAny", "USVString");
   ("ConstType", "Integer", "Identifier", "long");
   ("ConstType", "FloatingPoint", "Identifier", "float");
   ("ConstType", "Boolean", "Identifier", "boolean");
   ("ConstType", "Byte", "Identifier", "byte");
   ("ConstType", "Octet", "Identifier", "octet");
   ("ReturnType", "Undefined", "Type", "undefined");
   ("Definition", "Typedef", "IncludesStatement", "typedef includes X;");
   ("Definition", "Typedef", "Implements", "typedef implements X;")].
Definition overlaps : list (string * string * string) := map fst overlap_texts.
Fixpoint pairs {A} (l : list A) : list (A * A) := match l with [] => [] | x :: l' => map (fun y => (x, y)) l' ++ pairs l' end.
Definition steps := 100.
(** The pairs that are not settled. *)
Definition open_pairs : list (string * string * string) :=
  flat_map (fun i => match i with
                     | IEnum _ x vs => map (fun p => (x, fst (fst p), fst (snd p)))
                         (filter (fun p => negb (excl steps [index (Sy (snd (fst p)))] [index (Sy (snd (snd p)))])) (pairs vs))
                     | _ => []
                     end) enums.

Lemma open_pairs_are : open_pairs = overlaps.
Proof. vm_compute. reflexivity. Qed.

(** ** Which pairs there are *)
(** [v] is before [w]. *)
Definition Before {A} (v w : A) (l : list A) : Prop := exists l1 l2 l3, l = l1 ++ v :: l2 ++ w :: l3.
Lemma in_pairs {A} (v w : A) l : In (v, w) (pairs l) <-> Before v w l.
Proof.
  induction l as [|x l IH]; cbn [pairs].
  - split; [intros []|intros (l1 & l2 & l3 & E); destruct l1; discriminate E].
  - rewrite in_app_iff, in_map_iff, IH. split.
    + intros [(y & [= -> ->] & H)|(l1 & l2 & l3 & ->)]; [|exists (x :: l1), l2, l3; reflexivity].
      apply in_split in H. destruct H as (l2 & l3 & ->). exists [], l2, l3. reflexivity.
    + intros (l1 & l2 & l3 & E). destruct l1 as [|y l1]; injection E as -> ->.
      * left. exists w. split; [reflexivity|]. apply in_or_app. right. left. reflexivity.
      * right. exists l1, l2, l3. reflexivity.
Qed.
Lemma Before_map {A B} (f : A -> B) v w l : Before v w l -> Before (f v) (f w) (map f l).
Proof. intros (l1 & l2 & l3 & ->). exists (map f l1), (map f l2), (map f l3). rewrite map_app. cbn. rewrite map_app. reflexivity. Qed.
Lemma Before_either {A} (v w : A) l : In v l -> In w l -> v <> w -> Before v w l \/ Before w v l.
Proof.
  intros Hv Hw N. apply in_split in Hv. destruct Hv as (l1 & l2 & ->). apply in_app_or in Hw. destruct Hw as [Hw|[Hw|Hw]]; [| |].
  - right. apply in_split in Hw. destruct Hw as (k1 & k2 & ->). exists k1, k2, l2. rewrite <- app_assoc. reflexivity.
  - contradiction.
  - left. apply in_split in Hw. destruct Hw as (k1 & k2 & ->). exists l1, k1, k2. reflexivity.
Qed.
Lemma nodup_split {A} (v : A) l1 l2 k1 k2 : NoDup (l1 ++ v :: l2) -> l1 ++ v :: l2 = k1 ++ v :: k2 -> l1 = k1 /\ l2 = k2.
Proof.
  revert k1. induction l1 as [|x l1 IH]; intros k1 D E; destruct k1 as [|y k1]; cbn in D, E.
  - injection E as ->. auto.
  - injection E as -> ->. exfalso. inversion D as [|? ? H _]; subst. apply H. apply in_or_app. right. left. reflexivity.
  - injection E as <- <-. exfalso. inversion D as [|? ? H _]; subst. apply H. apply in_or_app. right. left. reflexivity.
  - injection E as <- E. inversion D as [|? ? _ D']; subst. destruct (IH _ D' E) as [-> ->]. auto.
Qed.
Lemma Before_in {A} (v w : A) l1 l2 : NoDup (l1 ++ w :: l2) -> Before v w (l1 ++ w :: l2) -> In v l1.
Proof.
  intros D (k1 & k2 & k3 & E). rewrite app_comm_cons, app_assoc in E. destruct (nodup_split _ _ _ _ _ D E) as [-> _]. apply in_or_app. right. left. reflexivity.
Qed.
Lemma Before_asym {A} (v w : A) l : NoDup l -> Before v w l -> Before w v l -> False.
Proof.
  intros D E (k1 & k2 & k3 & ->). apply Before_in in E; [|exact D].
  apply in_split in E. destruct E as (a & b & ->). rewrite <- app_assoc in D. cbn in D. apply NoDup_remove_2 in D. apply D.
  apply in_or_app. right. apply in_or_app. right. right. apply in_or_app. right. left. reflexivity.
Qed.

Lemma variants_known : forallb (fun i => match i with IEnum _ _ vs => forallb (fun v => match den (index (Sy (snd v))) with Sy u => rty_eqb (snd v) u | _ => false end) vs | _ => true end) enums = true.
Proof. vm_compute. reflexivity. Qed.
Lemma den_index ds x vs v t : In (IEnum ds x vs) enums -> In (v, t) vs -> den (index (Sy t)) = Sy t.
Proof.
  intros H K. pose proof variants_known as E. rewrite forallb_forall in E. specialize (E _ H). cbn beta iota in E. rewrite forallb_forall in E. specialize (E _ K). cbn [snd] in E.
  destruct (den (index (Sy t))) as [u|]; [|discriminate E]. apply (rty_eqb_eq (rsz t)) in E; [|auto]. subst u. reflexivity.
Qed.
Lemma before_apart ds x vs v t w u s r r' a b : In (IEnum ds x vs) crate_items -> Before (v, t) (w, u) vs -> ~ In (x, v, w) overlaps ->
  gives_ok t s r a -> gives_ok u s r' b -> False.
Proof.
  intros H K N Ht Hu. assert (He : In (IEnum ds x vs) enums) by (apply (proj2 (enums_are _)); eauto 6).
  destruct (excl steps [index (Sy t)] [index (Sy u)]) eqn:E.
  - refine (excl_ok _ _ _ E s r r' _ _); cbn [map].
    + rewrite (den_index _ _ _ v t He); [exact (one _ _ _ _ Ht)|]. destruct K as (? & ? & ? & ->). apply in_or_app. right. left. reflexivity.
    + rewrite (den_index _ _ _ w u He); [exact (one _ _ _ _ Hu)|]. destruct K as (? & ? & ? & ->). apply in_or_app. right. right. apply in_or_app. right. left. reflexivity.
  - apply N. rewrite <- open_pairs_are. unfold open_pairs. apply in_flat_map. exists (IEnum ds x vs). split; [exact He|]. apply in_map_iff.
    exists ((v, t), (w, u)). split; [reflexivity|]. apply filter_In. split; [apply in_pairs; exact K|]. cbn [fst snd]. rewrite E. reflexivity.
Qed.
(** Different variants of an enum that are not in the list never begin the same text. *)
Theorem variants_apart ds x vs v t w u : In (IEnum ds x vs) crate_items -> In (v, t) vs -> In (w, u) vs -> v <> w ->
  ~ In (x, v, w) overlaps -> ~ In (x, w, v) overlaps -> forall s r a r' b, gives_ok t s r a -> gives_ok u s r' b -> False.
Proof.
  intros H K L N A B s r a r' b Ht Hu. destruct (Before_either (v, t) (w, u) vs K L) as [M|M]; [congruence| |].
  - exact (before_apart _ _ _ _ _ _ _ _ _ _ _ _ H M A Ht Hu).
  - exact (before_apart _ _ _ _ _ _ _ _ _ _ _ _ H M B Hu Ht).
Qed.
(** Those that are in the list do, and the first of the two is the result. *)
Definition two_variants (x v w : string) : option (rty * rty) :=
  match find (fun i => match i with IEnum _ y _ => String.eqb x y | _ => false end) enums with
  | Some (IEnum _ _ vs) => match find (fun p => String.eqb v (fst (fst p)) && String.eqb w (fst (snd p))) (pairs vs) with Some p => Some (snd (fst p), snd (snd p)) | None => None end
  | _ => None
  end.
Definition Overlap (o : string * string * string * string) : Prop :=
  let '(x, v, w, z) := o in
  exists ds vs t u, In (IEnum ds x vs) crate_items /\ Before (v, t) (w, u) vs /\
    (exists r a, FirstOf x (str z) vs r (VData x v [("0", a)]) /\ gives_ok t (str z) r a) /\ (exists r a, gives_ok u (str z) r a).
Ltac reads_text :=
  do 2 eexists; eapply modelled_gives_ok;
  [once (first [apply Imp_Modelled; modelled
               |exact Imp_DecLit|exact Imp_HexLit|exact Imp_OctLit|exact Imp_IntegerLit|exact Imp_BooleanLit|exact Imp_FloatValueLit
               |exact Imp_FloatLit|exact Imp_EmptyArrayLit|exact Imp_EmptyDictionaryLit])
  |vm_compute; reflexivity|reflexivity].
(** ** Changing the order *)
Fixpoint distinct (l : list string) : bool := match l with [] => true | x :: l' => negb (existsb (String.eqb x) l') && distinct l' end.
Lemma distinct_ok l : distinct l = true -> NoDup l.
Proof.
  induction l as [|x l IH]; cbn [distinct]; intros H; constructor; apply andb_prop in H; destruct H as [H H'].
  - intros K. apply negb_true_iff in H. assert (E : existsb (String.eqb x) l = true); [|congruence]. apply existsb_exists. exists x. split; [exact K|apply String.eqb_refl].
  - auto.
Qed.
Definition enum_name (i : item) : string := match i with IEnum _ x _ => x | _ => "" end.
Lemma enum_names : NoDup (map enum_name enums).
Proof. apply distinct_ok. vm_compute. reflexivity. Qed.
Lemma map_inj {A B} (f : A -> B) l x y : NoDup (map f l) -> In x l -> In y l -> f x = f y -> x = y.
Proof.
  induction l as [|z l IH]; cbn; [tauto|]. intros D [<-|Hx] [<-|Hy] E; [reflexivity| | |]; inversion D as [|? ? N D']; subst.
  - exfalso. apply N. rewrite E. apply in_map. exact Hy.
  - exfalso. apply N. rewrite <- E. apply in_map. exact Hx.
  - auto.
Qed.
Lemma one_enum ds x vs ds' vs' : In (IEnum ds x vs) enums -> In (IEnum ds' x vs') enums -> vs = vs'.
Proof. intros H K. assert (E := map_inj enum_name enums _ _ enum_names H K eq_refl). injection E as _ ->. reflexivity. Qed.
Lemma variant_names ds x vs : In (IEnum ds x vs) enums -> NoDup (map fst vs).
Proof.
  intros H. assert (E : forallb (fun i => match i with IEnum _ _ vs => distinct (map fst vs) | _ => true end) enums = true) by (vm_compute; reflexivity).
  rewrite forallb_forall in E. specialize (E _ H). cbv beta iota in E. exact (distinct_ok _ E).
Qed.
Lemma overlap_before ds x vs v w : In (IEnum ds x vs) enums -> In (x, v, w) overlaps -> Before v w (map fst vs).
Proof.
  intros H K. rewrite <- open_pairs_are in K. unfold open_pairs in K. destruct (proj1 (in_flat_map _ _ _) K) as (i & Hi & K'). clear K. rename K' into K. destruct i as [|ds' y vs'| | | | |]; try contradiction K.
  apply in_map_iff in K. destruct K as ([[v' t] [w' u]] & [= -> -> ->] & K). apply filter_In in K. destruct K as [K _]. apply in_pairs in K.
  rewrite (one_enum _ _ _ _ _ H Hi). exact (Before_map fst _ _ _ K).
Qed.
Lemma first_split x s vs r a : FirstOf x s vs r a <-> exists l1 v t l2 b, vs = l1 ++ (v, t) :: l2 /\ NoneOf s l1 /\ gives_ok t s r b /\ a = VData x v [("0", b)].
Proof.
  split.
  - induction 1 as [v t vs r a H|v t vs p k r a H _ (l1 & w & u & l2 & b & -> & N & G & ->)].
    + exists [], v, t, vs, a. split; [reflexivity|]. split; [constructor|auto].
    + exists ((v, t) :: l1), w, u, l2, b. split; [reflexivity|]. split; [constructor; [exists p, k; exact H|exact N]|auto].
  - intros (l1 & v & t & l2 & b & -> & N & G & ->). induction N as [|[w u] l1 (p & k & E) _ IH]; cbn [app]; [constructor; exact G|econstructor; [exact E|exact IH]].
Qed.
Lemma all_variants_known ds x vs : In (IEnum ds x vs) enums -> Forall (fun v => Known (snd v)) vs.
Proof. intros H. exact (proj2 (proj1 (Forall_forall _ _) enums_follow _ H)). Qed.
Lemma first_or_none x s vs : Forall (fun v => Known (snd v)) vs -> (exists r a, FirstOf x s vs r a) \/ NoneOf s vs.
Proof.
  induction 1 as [|[v t] vs K _ IH]; [right; constructor|]. cbn [snd] in K. destruct (K s) as [(r & a & G)|(p & k & G)].
  - left. eexists _, _. constructor. exact G.
  - destruct IH as [(r & a & IH)|IH]; [left; eexists _, _; econstructor; eassumption|right; constructor; [exists p, k; exact G|exact IH]].
Qed.
Lemma overlap x v w z t u : two_variants x v w = Some (t, u) -> (exists r a, gives_ok (Ty x []) (str z) r (VData x v [("0", a)])) ->
  (exists r a, gives_ok u (str z) r a) -> Overlap (x, v, w, z).
Proof.
  unfold two_variants, Overlap. destruct (find _ enums) as [i|] eqn:E; [|discriminate]. apply find_some in E. destruct E as [E1 E2].
  destruct i as [|ds y vs| | | | |]; try discriminate E2. apply String.eqb_eq in E2. subst y.
  destruct (find _ (pairs vs)) as [[[v' t'] [w' u']]|] eqn:E; [|discriminate]. apply find_some in E. cbn [fst snd] in E. destruct E as [E E'].
  apply andb_prop in E'. destruct E' as [E' E'']. apply String.eqb_eq in E', E''. subst v' w'. intros [= <- <-] (r & a & H) K.
  apply in_pairs in E. pose proof (proj1 (proj1 (enums_are _) E1)) as I.
  exists ds, vs, t', u'. split; [exact I|]. split; [exact E|]. split; [|exact K].
  apply (proj1 (enum_first _ _ _ I)) in H. exists r, a. split; [exact H|]. apply first_split in H. destruct H as (l1 & v' & t & l2 & b & -> & _ & G & [= <- <-]).
  assert (Q : (v, t) = (v, t')); [|injection Q as ->; exact G]. apply (map_inj fst _ _ _ (variant_names _ _ _ E1)); [apply in_or_app; right; left; reflexivity| |reflexivity].
  destruct E as (? & ? & ? & ->). apply in_or_app. right. left. reflexivity.
Qed.
Ltac overlapping := eapply overlap; [vm_compute; reflexivity|solve [reads_text]|solve [reads_text]].
Theorem overlaps_overlap : Forall Overlap overlap_texts.
Proof. unfold overlap_texts. each overlapping. Qed.

Lemma triple_dec (p q : string * string * string) : {p = q} + {p <> q}.
Proof. repeat decide equality. Qed.
(** The variants in another order that keeps the order of the listed pairs. *)
Theorem order_free ds x vs vs' : In (IEnum ds x vs) crate_items -> Permutation vs vs' ->
  (forall v w, In (x, v, w) overlaps -> Before v w (map fst vs')) ->
  (forall s r a, FirstOf x s vs' r a <-> FirstOf x s vs r a) /\ (forall s, NoneOf s vs' <-> NoneOf s vs).
Proof.
  intros H P O. assert (He : In (IEnum ds x vs) enums) by (apply (proj2 (enums_are _)); eauto 6).
  pose proof (variant_names _ _ _ He) as D. pose proof (all_variants_known _ _ _ He) as K.
  assert (D' : NoDup (map fst vs')) by (exact (Permutation_NoDup (Permutation_map fst P) D)).
  assert (K' : Forall (fun v => Known (snd v)) vs') by (exact (Permutation_Forall P K)).
  assert (N : forall s, NoneOf s vs' <-> NoneOf s vs) by (intros s; split; intros N; [exact (Permutation_Forall (Permutation_sym P) N)|exact (Permutation_Forall P N)]).
  assert (F : forall s r a, FirstOf x s vs' r a -> FirstOf x s vs r a).
  { intros s r a G. apply first_split in G. destruct G as (l1 & v & t & l2 & b & E & Nl & G & ->). apply first_split.
    assert (I : In (v, t) vs) by (apply (Permutation_in _ (Permutation_sym P)); rewrite E; apply in_or_app; right; left; reflexivity).
    apply in_split in I. destruct I as (k1 & k2 & E'). exists k1, v, t, k2, b. split; [exact E'|]. split; [|auto].
    apply Forall_forall. intros [w u] J. cbn [snd].
    assert (Kw : Known u) by (rewrite E' in K; apply (proj1 (Forall_forall _ _) K (w, u)); apply in_or_app; left; exact J).
    destruct (Kw s) as [(r' & b' & G')|E2]; [exfalso|exact E2].
    assert (B : Before (w, u) (v, t) vs) by (apply in_split in J; destruct J as (j1 & j2 & ->); exists j1, j2, k2; rewrite E', <- app_assoc; reflexivity).
    assert (Q : In (x, w, v) overlaps).
    { destruct (in_dec triple_dec (x, w, v) overlaps) as [Q|Q]; [exact Q|]. exfalso. exact (before_apart _ _ _ _ _ _ _ _ _ _ _ _ H B Q G' G). }
    apply O in Q. rewrite E, map_app in Q, D'. cbn [map fst] in Q, D'. apply (Before_in _ _ _ _ D') in Q. apply in_map_iff in Q. destruct Q as ([w' u'] & Ew & Q). cbn [fst] in Ew. subst w'.
    assert (Eu : (w, u') = (w, u)).
    { apply (map_inj fst vs _ _ D); [|destruct B as (? & ? & ? & ->); apply in_or_app; right; left; reflexivity|reflexivity].
      apply (Permutation_in _ (Permutation_sym P)). rewrite E. apply in_or_app. left. exact Q. }
    injection Eu as ->. pose proof (proj1 (Forall_forall _ _) Nl _ Q) as (p & k & Z). exact (ok_err _ _ _ _ _ _ G' Z). }
  split; [|exact N]. intros s r a. split; [apply F|]. intros G. destruct (first_or_none x s vs' K') as [(r' & a' & G')|Z].
  - destruct (first_det _ _ _ _ _ G _ _ (F _ _ _ G')) as [-> ->]. exact G'.
  - exfalso. apply (first_not_none _ _ _ _ _ G). apply N. exact Z.
Qed.
Lemma overlap_text x v w : In (x, v, w) overlaps -> exists z, Overlap (x, v, w, z).
Proof.
  unfold overlaps. intros H. apply in_map_iff in H. destruct H as ([p z] & E & H). cbn [fst] in E. subst p. exists z.
  exact (proj1 (Forall_forall _ _) overlaps_overlap _ H).
Qed.
(** And only those orders. *)
Theorem order_exact ds x vs vs' : In (IEnum ds x vs) crate_items -> Permutation vs vs' ->
  ((forall s r a, FirstOf x s vs' r a <-> FirstOf x s vs r a) <-> (forall v w, In (x, v, w) overlaps -> Before v w (map fst vs'))).
Proof.
  intros H P. split; [|intros O; exact (proj1 (order_free _ _ _ _ H P O))]. intros F v w O.
  destruct (overlap_text _ _ _ O) as (z & ds' & ws & t & u & H' & B & (r & a & G & _) & (r' & b & K)).
  assert (He : In (IEnum ds x vs) enums) by (apply (proj2 (enums_are _)); eauto 6).
  assert (He' : In (IEnum ds' x ws) enums) by (apply (proj2 (enums_are _)); eauto 6).
  rewrite <- (one_enum _ _ _ _ _ He He') in *. clear ws H' He'.
  pose proof (variant_names _ _ _ He) as D. assert (D' : NoDup (map fst vs')) by (exact (Permutation_NoDup (Permutation_map fst P) D)).
  assert (Iv : In v (map fst vs')) by (apply (Permutation_in _ (Permutation_map fst P)); destruct B as (? & ? & ? & ->); apply (in_map fst _ (v, t)), in_or_app; right; left; reflexivity).
  assert (Iw : In (w, u) vs) by (destruct B as (? & ? & ? & ->); apply in_or_app; right; right; apply in_or_app; right; left; reflexivity).
  assert (Iw' : In w (map fst vs')) by (apply (Permutation_in _ (Permutation_map fst P)), (in_map fst _ (w, u)), Iw).
  destruct (string_dec v w) as [<-|N].
  { exfalso. apply (Before_map fst) in B. cbn [fst] in B. exact (Before_asym _ _ _ D B B). }
  destruct (Before_either _ _ _ Iv Iw' N) as [Q|Q]; [exact Q|]. exfalso.
  apply F in G. apply first_split in G. destruct G as (l1 & v' & t' & l2 & b' & E & Nl & G & [= <- <-]).
  rewrite E, map_app in Q, D'. cbn [map fst] in Q, D'. apply (Before_in _ _ _ _ D') in Q. apply in_map_iff in Q. destruct Q as ([w' u'] & Ew & Q). cbn [fst] in Ew. subst w'.
  assert (Eu : (w, u') = (w, u)).
  { apply (map_inj fst vs _ _ D); [|exact Iw|reflexivity]. apply (Permutation_in _ (Permutation_sym P)). rewrite E. apply in_or_app. left. exact Q. }
  injection Eu as ->. pose proof (proj1 (Forall_forall _ _) Nl _ Q) as (p & k & Z). exact (ok_err _ _ _ _ _ _ K Z).
Qed.
