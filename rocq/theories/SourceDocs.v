(** * The documentation comments of the source: the forms that they give for the types, the symbols of the terms, and the examples *)
From Coq Require Import String Ascii NArith Arith Bool List Lia.
From Verif Require Import Source Rust Crate Interp Embed Faithful SourceLex SourceTypes SourceProps SourceFacts SourceTests
  Nom Lex Ast Grammar Spec RunFacts TokFacts TermFacts LexProps Api ApiFacts.
Import ListNotations.
Open Scope string_scope.
Open Scope list_scope.

(** ** Reading the comments *)
(** What is documented: the name of a struct, an enum, an alias, a function or a term of [generate_terms!]. *)
Definition doc_name (l : list ftok) : option string :=
  match l with
  | FT (I k) :: FT (I x) :: _ =>
      if String.eqb k "pub" then match l with _ :: _ :: FT (I y) :: _ => Some y | _ => None end
      else if String.eqb k "struct" || String.eqb k "enum" then Some x else None
  | FT (I _) :: FOpen Paren :: FT (I k) :: FT (I x) :: _ => if String.eqb k "struct" || String.eqb k "enum" then Some x else None
  | FT (I x) :: FT (P a) :: FT (P b) :: _ => if Ascii.eqb a "=" && Ascii.eqb b ">" then Some x else None
  | _ => None
  end.
(** All documented names with the lines of their documentation, each from the [///] on; [acc] has the lines so far, the last one first,
    and [skip] is set within another attribute. *)
Fixpoint docs_of (acc : list string) (skip : bool) (l : list ftok) : list (string * list string) :=
  match l with
  | [] => []
  | FT (P p) :: FOpen Bracket :: FT (I d) :: FT (P e) :: FT (S_ a) :: FClose Bracket :: l' =>
      if Ascii.eqb p "#" && String.eqb d "doc" then docs_of (a :: acc) false l' else docs_of [] false l'
  | FClose Bracket :: l' => docs_of acc false l'
  | FT (P p) :: ((FOpen Bracket :: _) as l') =>
      if Ascii.eqb p "#" then docs_of acc true l' else docs_of [] false l'
  | _ :: l' =>
      if skip then docs_of acc true l'
      else match acc, doc_name l with
           | [], _ => docs_of [] false l'
           | _, Some x => (x, rev acc) :: docs_of [] false l'
           | _, None => docs_of [] false l'
           end
  end.
Definition file_docs (s : string) : list (string * list string) := docs_of [] false (lex_rust (String.length s) s).
(** The documentation of all types (and that of the terms apart). *)
Definition type_files : list string := map snd (filter (fun f => negb (existsb (String.eqb (fst f)) ["macros"; "whitespace"; "term"; "literal"])) sources).
Definition type_docs : list (string * list string) := Eval vm_compute in flat_map file_docs type_files.
Definition term_docs : list (string * list string) := Eval vm_compute in file_docs Source.src_term.

(** ** The forms *)
Definition c_tick : ascii := "`".
Definition untick (c : ascii) : bool := negb (Ascii.eqb c c_tick).
Fixpoint occurs (a s : string) : bool :=
  prefix a s || match s with EmptyString => false | String _ s' => occurs a s' end.
(** What is between the first two ticks, and what is after them. *)
Definition ticked (s : string) : option (string * string) :=
  match snd (take untick s) with
  | String _ s' => let '(a, b) := take untick s' in match b with String _ b' => Some (a, b') | EmptyString => None end
  | EmptyString => None
  end.
(** Atoms of a form. *)
Inductive atom : Set :=
| AWord (s : string)              (* a keyword *)
| APunct (s : string)
| ANon (s : string)               (* the name of another form *)
| AOpt (l : list atom)            (* [(...)?] *)
| AAlt (l : list (list atom)).    (* [a|b] *)
(** Names of forms, with the types that they stand for. *)
Definition comma : rty := Ty "term::Comma" [].
Definition forms : list (string * rty) :=
  [("identifier", Ty "Identifier" []); ("inheritance", Ty "Identifier" []);
   ("type", Ty "Type" []); ("type", Ty "ReturnType" []); ("type", Ty "ConstType" []); ("type", Ty "NonAnyType" []); ("Type", Ty "Type" []);
   ("StringType", Ty "RecordKeyType" []); ("attributedtype", Ty "AttributedType" []); ("returntype", Ty "ReturnType" []);
   ("attributes", Ty "Punctuated" [Ty "ExtendedAttribute" []; comma]); ("args", Ty "Punctuated" [Ty "Argument" []; comma]);
   ("default", Ty "DefaultValue" []); ("value", Ty "ConstValue" []); ("values", Ty "PunctuatedNonEmpty" [Ty "StringLit" []; comma]);
   ("members", Ty "Vec" [Ty "InterfaceMember" []]); ("members", Ty "Vec" [Ty "MixinMember" []]);
   ("members", Ty "Vec" [Ty "NamespaceMember" []]); ("members", Ty "Vec" [Ty "DictionaryMember" []]);
   ("special", Ty "Special" [])].
(** Tokens of a form: [((] and [))] are parentheses, single ones group; [|] without blanks binds more than with. *)
Inductive ptok : Set := KWord (s : string) | KPunct (s : string) | KOpen | KClose | KBar | KTight | KOpt.
Fixpoint form_toks (n : nat) (s : string) : list ptok :=
  match n, s with
  | S n, String c s' =>
      if prefix " | " s then KBar :: form_toks n (substring 3 (String.length s) s)
      else if Ascii.eqb c " " then form_toks n s'
      else if id_start c then let '(a, b) := take id_char s in KWord a :: form_toks n b
      else if prefix "((" s then KPunct "(" :: form_toks n (substring 2 (String.length s) s)
      else if prefix "))" s then KPunct ")" :: form_toks n (substring 2 (String.length s) s)
      else if prefix "..." s then KPunct "..." :: form_toks n (substring 3 (String.length s) s)
      else (if Ascii.eqb c "(" then KOpen else if Ascii.eqb c ")" then KClose else if Ascii.eqb c "|" then KTight
            else if Ascii.eqb c "?" then KOpt else KPunct (String c "")) :: form_toks n s'
  | _, _ => []
  end.
(** A [?] after a single atom or a group. *)
Definition postfix (d : list atom) (l : list ptok) : list atom * list ptok :=
  match l with KOpt :: l' => ([AOpt d], l') | _ => (d, l) end.
(** Alternatives with [ | ], each of atoms one after the other, each of these with [|]; brackets of all kinds are closed by the last case. *)
Fixpoint form_alts (n : nat) (l : list ptok) : list (list atom) * list ptok :=
  match n with
  | 0 => ([], l)
  | S n =>
      let '(d, l) := form_seq n l in
      match l with
      | KBar :: l' => let '(ds, l) := form_alts n l' in (d :: ds, l)
      | _ => ([d], l)
      end
  end
with form_seq (n : nat) (l : list ptok) : list atom * list ptok :=
  match n with
  | 0 => ([], l)
  | S n =>
      match l with
      | [] | KBar :: _ | KClose :: _ | KPunct ")" :: _ | KPunct "]" :: _ | KPunct "}" :: _ => ([], l)
      | _ => let '(d, l) := form_tight n l in let '(d', l) := form_seq n l in (match d with [x] => x | _ => [AAlt d] end ++ d', l)
      end
  end
with form_tight (n : nat) (l : list ptok) : list (list atom) * list ptok :=
  match n with
  | 0 => ([], l)
  | S n =>
      let '(d, l) := form_atom n l in
      match l with
      | KTight :: l' => let '(ds, l) := form_tight n l' in (d :: ds, l)
      | _ => ([d], l)
      end
  end
with form_atom (n : nat) (l : list ptok) : list atom * list ptok :=
  match n with
  | 0 => ([], l)
  | S n =>
      match l with
      | KWord x :: l' => postfix [if existsb (fun f => String.eqb (fst f) x) forms then ANon x else AWord x] l'
      | KOpen :: l' => let '(ds, l) := form_alts n l' in postfix (match ds with [d] => d | _ => [AAlt ds] end) (tl l)
      | KPunct p :: l' =>
          if existsb (String.eqb p) ["("; "["; "{"] then
            let '(d, l) := form_seq n l' in match l with KPunct q :: l' => postfix (APunct p :: d ++ [APunct q]) l' | _ => (d, l) end
          else ([APunct p], l')
      | _ :: l' => ([], l')
      | [] => ([], [])
      end
  end.
Definition form_of (s : string) : option (list atom) :=
  match form_alts 100 (form_toks (String.length s) s) with
  | ([d], []) => Some d
  | (ds, []) => Some [AAlt ds]
  | _ => None
  end.
(** The form that a documentation gives: of lines [Parses ... `form`], where the form is not an example ([Ex:]) nor one of several possibilities. *)
Definition form_line (s : string) : option string :=
  if prefix "/// Parses" s && negb (occurs "Ex:" s) then
    match ticked s with Some (f, r) => if prefix " or " r then None else Some f | None => None end
  else None.
Definition doc_form (d : string * list string) : list (string * string) :=
  flat_map (fun l => match form_line l with Some f => [(fst d, f)] | None => [] end) (snd d).
(** The types that are not generic and have a form. *)
Definition not_generic (x : string) : bool := existsb (fun i => existsb (String.eqb x) (declared i)) crate_items.
Definition documented : list (string * string) := Eval vm_compute in filter (fun d => not_generic (fst d)) (flat_map doc_form type_docs).

(** ** Texts of a form *)
(** [<t as Parse>::parse], run from the source, reads [s] up to [rest]. *)
Definition Runs (t : rty) (s rest : text) : Prop :=
  exists v N, forall n, N <= n -> call n (CParse t) [VStr s] = Val (VCon "Ok" [VTup [VStr rest; v]]).
Inductive HasForm : list atom -> text -> text -> Prop :=
| Reads_nil s : HasForm [] s s
| Reads_word w d s m r : At (word w) s m -> HasForm d m r -> HasForm (AWord w :: d) s r
| Reads_punct w d s m r : At (TPunct w) s m -> HasForm d m r -> HasForm (APunct w :: d) s r
| Reads_form f t d s m r : In (f, t) forms -> Runs t s m -> HasForm d m r -> HasForm (ANon f :: d) s r
| Reads_some a d s r : HasForm (a ++ d) s r -> HasForm (AOpt a :: d) s r
| Reads_none a d s r : HasForm d s r -> HasForm (AOpt a :: d) s r
| Reads_alt l a d s r : In a l -> HasForm (a ++ d) s r -> HasForm (AAlt l :: d) s r.

Lemma Runs_exact t A P enc s r : ImplFor t A P enc -> (Runs t s r <-> exists a, P s = Ok r a).
Proof.
  intros H. destruct (implements_source _ _ _ _ H s) as [N HN]. split.
  - intros (v & N' & K). specialize (HN (N + N') ltac:(lia)). rewrite (K (N + N')) in HN by lia. destruct (P s) as [r' a|e|]; cbn in HN; try discriminate HN.
    injection HN as -> _. eauto.
  - intros (a & E). rewrite E in HN. exists (enc a), N. exact HN.
Qed.

(** [Rp p d e]: where [p] reads something and a text of the form [e] follows, all of it has the form [d]. *)
Definition Rp {A} (p : pexp A) (d e : list atom) : Prop :=
  forall n s m a r, trun n A p s = Ok m a -> HasForm e m r -> HasForm d s r.
Lemma Rp_ret A (a : A) d : Rp (PRet a) d d.
Proof. intros n s m x r E. rewrite run_ret in E. injection E as <- _. auto. Qed.
Lemma Rp_bind A B (p : pexp A) (f : A -> pexp B) d c e : Rp p d c -> (forall a, Rp (f a) c e) -> Rp (PBind p f) d e.
Proof.
  intros H1 H2 n s m b r E He. rewrite run_bind in E. unfold bind in E. destruct (trun n A p s) as [j a|x|] eqn:Ep; try discriminate E.
  apply (H1 _ _ _ _ _ Ep). apply (H2 _ _ _ _ _ _ E He).
Qed.
Lemma Rp_word t w d : not_minus_dot t -> term_tok t = word w -> Rp (T_ t) (AWord w :: d) d.
Proof.
  intros Ht Hw n s m a r E He. unfold T_ in E. rewrite run_term in E. apply (p_term_At t) in E; [|exact Ht]. rewrite Hw in E.
  econstructor; eassumption.
Qed.
Lemma Rp_punct t w d : not_minus_dot t -> term_tok t = TPunct w -> Rp (T_ t) (APunct w :: d) d.
Proof.
  intros Ht Hw n s m a r E He. unfold T_ in E. rewrite run_term in E. apply (p_term_At t) in E; [|exact Ht]. rewrite Hw in E.
  econstructor; eassumption.
Qed.
Lemma Rp_opt A (p : pexp A) a d : Rp p (a ++ d) d -> Rp (POpt p) (AOpt a :: d) d.
Proof.
  intros H n s m x r E He. rewrite run_opt in E. unfold opt in E. destruct (trun n A p s) as [j y|[pos k|pos k|]|] eqn:Ep; try discriminate E.
  - injection E as <- _. apply Reads_some. apply (H _ _ _ _ _ Ep He).
  - injection E as <- _. apply Reads_none. exact He.
Qed.
Lemma Rp_or A (p q : pexp A) d e : Rp p d e -> Rp q d e -> Rp (POr p q) d e.
Proof.
  intros H1 H2 n s m x r E He. rewrite run_or in E. unfold alt_or in E.
  destruct (trun n A p s) as [j y|[pos k|pos k|]|] eqn:Ep; try discriminate E.
  - injection E as <- <-. apply (H1 _ _ _ _ _ Ep He).
  - apply (H2 _ _ _ _ _ E He).
Qed.
Lemma Rp_end A d e : Rp (@PEnd A) d e.
Proof. intros n s m x r E. rewrite run_end in E. discriminate E. Qed.
Lemma Rp_nt A (x : nt A) d e : Rp (grammar x) d e -> Rp (PNT x) d e.
Proof. intros H [|n] s m a r E; [discriminate E|]. rewrite run_nt_S in E. apply (H _ _ _ _ _ E). Qed.
Lemma Rp_form A (p : pexp A) t enc w d : (forall m, SrcP m p t enc) -> In (w, t) forms -> Rp p (ANon w :: d) d.
Proof.
  intros H Hw n s m a r E He. apply (Reads_form _ t _ _ m _ Hw); [|exact He].
  destruct (H n) as [N HN]. exists (enc a), N. intros k Hk. specialize (HN k Hk s). cbv beta in HN. rewrite E in HN. exact HN.
Qed.
(** One of the alternatives of the first group of alternatives, which is inside of the form or at its start. *)
Lemma Reads_at l a b c s r : In a l -> HasForm (b ++ a ++ c) s r -> HasForm (b ++ AAlt l :: c) s r.
Proof.
  intros Hl H. remember (b ++ a ++ c) as d eqn:E. revert b E. induction H; intros b E.
  all: destruct b as [|x b]; [cbn [app] in *; eapply Reads_alt; [exact Hl|]; rewrite <- E; econstructor; eassumption|].
  1: discriminate E.
  all: injection E as <- ->; cbn [app].
  - econstructor; [eassumption|]. apply IHHasForm; reflexivity.
  - econstructor; [eassumption|]. apply IHHasForm; reflexivity.
  - econstructor; [eassumption|eassumption|]. apply IHHasForm; reflexivity.
  - apply Reads_some. rewrite app_assoc. apply IHHasForm. rewrite app_assoc. reflexivity.
  - apply Reads_none. apply IHHasForm. reflexivity.
  - eapply Reads_alt; [eassumption|]. rewrite app_assoc. apply IHHasForm. rewrite app_assoc. reflexivity.
Qed.
Lemma Rp_at A (p : pexp A) l a b c e : In a l -> Rp p (b ++ a ++ c) e -> Rp p (b ++ AAlt l :: c) e.
Proof. intros Hl H n s m x r E He. apply Reads_at with a; [exact Hl|]. apply (H _ _ _ _ _ E He). Qed.
Lemma Reads_now l a d s r : In a l -> HasForm (a ++ d) s r -> HasForm (AAlt l :: d) s r.
Proof. apply Reads_alt. Qed.

(** The names in the forms. *)
Ltac in_forms := cbn [In forms]; repeat first [left; reflexivity | right].
Lemma L_id d : Rp e_Identifier (ANon "identifier" :: d) d.
Proof. eapply Rp_form; [apply modelled_src; apply M_Identifier|in_forms]. Qed.
Lemma L_inh d : Rp e_Identifier (ANon "inheritance" :: d) d.
Proof. eapply Rp_form; [apply modelled_src; apply M_Identifier|in_forms]. Qed.
Lemma L_at d : Rp e_AttributedType (ANon "attributedtype" :: d) d.
Proof. eapply Rp_form; [apply modelled_src; apply M_AttributedType|in_forms]. Qed.
Lemma L_rt d : Rp e_ReturnType (ANon "returntype" :: d) d.
Proof. eapply Rp_form; [apply modelled_src; apply M_ReturnType|in_forms]. Qed.
Lemma L_ty d : Rp e_Type (ANon "type" :: d) d.
Proof. eapply Rp_form; [apply modelled_src; apply M_Type|in_forms]. Qed.
Lemma L_ty2 d : Rp e_ReturnType (ANon "type" :: d) d.
Proof. eapply Rp_form; [apply modelled_src; apply M_ReturnType|in_forms]. Qed.
Lemma L_ty3 d : Rp e_ConstType (ANon "type" :: d) d.
Proof. eapply Rp_form; [apply modelled_src; apply M_ConstType|in_forms]. Qed.
Lemma L_ty4 d : Rp e_NonAnyType (ANon "type" :: d) d.
Proof. eapply Rp_form; [apply modelled_src; apply M_NonAnyType|in_forms]. Qed.
Lemma L_def d : Rp (PTerm TmDefaultValue) (ANon "default" :: d) d.
Proof. eapply Rp_form; [apply modelled_src; apply M_DefaultValue|in_forms]. Qed.
Lemma L_val d : Rp (PTerm TmConstValue) (ANon "value" :: d) d.
Proof. eapply Rp_form; [apply modelled_src; apply M_ConstValue|in_forms]. Qed.
Lemma L_sp d : Rp e_Special (ANon "special" :: d) d.
Proof. eapply Rp_form; [apply modelled_src; apply M_Special|in_forms]. Qed.
Lemma L_im d : Rp e_InterfaceMembers (ANon "members" :: d) d.
Proof. eapply Rp_form; [apply modelled_src; apply M_Vec, M_InterfaceMember|in_forms]. Qed.
Lemma L_mm d : Rp e_MixinMembers (ANon "members" :: d) d.
Proof. eapply Rp_form; [apply modelled_src; apply M_Vec, M_MixinMember|in_forms]. Qed.
Lemma L_nm d : Rp e_NamespaceMembers (ANon "members" :: d) d.
Proof. eapply Rp_form; [apply modelled_src; apply M_Vec, M_NamespaceMember|in_forms]. Qed.
Lemma L_dm d : Rp e_DictionaryMembers (ANon "members" :: d) d.
Proof. eapply Rp_form; [apply modelled_src; apply M_Vec, M_DictionaryMember|in_forms]. Qed.
Lemma L_args d : Rp e_ArgumentList (ANon "args" :: d) d.
Proof. eapply Rp_form; [intros m; apply (src_Punctuated m), default_term; apply modelled_src, M_Argument|in_forms]. Qed.
Lemma L_values d : Rp e_EnumValueList (ANon "values" :: d) d.
Proof. eapply Rp_form; [intros m; apply (src_PunctuatedNonEmpty m), default_term; apply modelled_src, M_StringLit|in_forms]. Qed.
Lemma L_attributes d : Rp (e_Punctuated (PNT NT_ExtendedAttribute) Comma) (ANon "attributes" :: d) d.
Proof. eapply Rp_form; [intros m; pose proof (rec_all m) as H; destruct H; apply (src_Punctuated m), default_term; eassumption|in_forms]. Qed.
Lemma L_Type d : Rp (PNT NT_Type) (ANon "type" :: d) d.
Proof. eapply Rp_form; [intros m; pose proof (rec_all m) as H; destruct H; eassumption|in_forms]. Qed.
Lemma L_Type' d : Rp (PNT NT_Type) (ANon "Type" :: d) d.
Proof. eapply Rp_form; [intros m; pose proof (rec_all m) as H; destruct H; eassumption|in_forms]. Qed.
Lemma L_Type'' d : Rp e_Type (ANon "Type" :: d) d.
Proof. eapply Rp_form; [apply modelled_src; apply M_Type|in_forms]. Qed.
Lemma L_key d : Rp (PNT NT_RecordKeyType) (ANon "StringType" :: d) d.
Proof. eapply Rp_form; [intros m; pose proof (rec_all m) as H; destruct H; eassumption|in_forms]. Qed.
Lemma Rp_skip A (p : pexp A) a d e : Rp p d e -> Rp p (AOpt a :: d) e.
Proof. intros H n s m x r E He. apply Reads_none. apply (H _ _ _ _ _ E He). Qed.
Ltac leaf :=
  lazymatch goal with
  | |- Rp e_Identifier (ANon "identifier" :: _) _ => apply L_id
  | |- Rp e_Identifier (ANon "inheritance" :: _) _ => apply L_inh
  | |- Rp e_AttributedType (ANon "attributedtype" :: _) _ => apply L_at
  | |- Rp e_ReturnType (ANon "returntype" :: _) _ => apply L_rt
  | |- Rp e_Type (ANon "type" :: _) _ => apply L_ty
  | |- Rp e_ReturnType (ANon "type" :: _) _ => apply L_ty2
  | |- Rp e_ConstType (ANon "type" :: _) _ => apply L_ty3
  | |- Rp e_NonAnyType (ANon "type" :: _) _ => apply L_ty4
  | |- Rp (PTerm TmDefaultValue) (ANon "default" :: _) _ => apply L_def
  | |- Rp (PTerm TmConstValue) (ANon "value" :: _) _ => apply L_val
  | |- Rp e_Special (ANon "special" :: _) _ => apply L_sp
  | |- Rp e_InterfaceMembers (ANon "members" :: _) _ => apply L_im
  | |- Rp e_MixinMembers (ANon "members" :: _) _ => apply L_mm
  | |- Rp e_NamespaceMembers (ANon "members" :: _) _ => apply L_nm
  | |- Rp e_DictionaryMembers (ANon "members" :: _) _ => apply L_dm
  | |- Rp e_ArgumentList (ANon "args" :: _) _ => apply L_args
  | |- Rp e_EnumValueList (ANon "values" :: _) _ => apply L_values
  | |- Rp (e_Punctuated (PNT NT_ExtendedAttribute) Comma) (ANon "attributes" :: _) _ => apply L_attributes
  | |- Rp (PNT NT_Type) (ANon "type" :: _) _ => apply L_Type
  | |- Rp (PNT NT_Type) (ANon "Type" :: _) _ => apply L_Type'
  | |- Rp e_Type (ANon "Type" :: _) _ => apply L_Type''
  | |- Rp (PNT NT_RecordKeyType) (ANon "StringType" :: _) _ => apply L_key
  end.
Ltac reads :=
  lazymatch goal with
  | |- Rp (PRet _) (AOpt _ :: _) [] => apply Rp_skip; reads
  | |- Rp (PRet _) _ _ => apply Rp_ret
  | |- Rp (PMap _ (PCond (match ?o with Some _ => true | None => false end) _)) _ _ => destruct o; cbn [PCond]; reads
  | |- Rp (PBind _ _) _ _ => eapply Rp_bind; [reads|intros ?; cbv beta; reads]
  | |- Rp (T_ _) (AWord _ :: _) _ => apply Rp_word; [exact Logic.I|reflexivity]
  | |- Rp (T_ _) (APunct _ :: _) _ => apply Rp_punct; [exact Logic.I|reflexivity]
  | |- Rp (POr _ _) _ _ => apply Rp_or; reads_one
  | |- Rp PEnd _ _ => apply Rp_end
  | |- Rp (POpt _) (AOpt _ :: _) _ => apply Rp_opt; cbn [app]; reads
  | |- Rp (POpt _) (AAlt _ :: _) _ => fail
  | |- Rp ?p (ANon _ :: _) _ =>
      first [ leaf | let p' := eval hnf in p in lazymatch p' with PBind _ _ => change p with p'; reads end ]
  | |- Rp (PNT NT_ReturnType) _ _ => apply Rp_nt; cbn [grammar]; reads
  | |- Rp (T_ _) _ _ => choose
  | |- Rp (PTerm _) _ _ => choose
  | |- Rp ?p ?d ?e =>
      first [ let p' := eval hnf in p in lazymatch p with p' => fail | _ => change (Rp p' d e); reads end | choose ]
  end
with choose :=
  lazymatch goal with
  | |- Rp ?p (AAlt ?l :: ?c) ?e =>
      first [ eapply (Rp_at _ p l _ [] c e); [left; reflexivity|cbn [app]; solve [reads]]
            | eapply (Rp_at _ p l _ [] c e); [right; left; reflexivity|cbn [app]; solve [reads]]
            | eapply (Rp_at _ p l _ [] c e); [right; right; left; reflexivity|cbn [app]; solve [reads]] ]
  | |- Rp ?p (?x :: AAlt ?l :: ?c) ?e =>
      first [ eapply (Rp_at _ p l _ [x] c e); [left; reflexivity|cbn [app]; solve [reads]]
            | eapply (Rp_at _ p l _ [x] c e); [right; left; reflexivity|cbn [app]; solve [reads]]
            | eapply (Rp_at _ p l _ [x] c e); [right; right; left; reflexivity|cbn [app]; solve [reads]] ]
  | |- Rp ?p (?x :: ?y :: AAlt ?l :: ?c) ?e =>
      first [ eapply (Rp_at _ p l _ [x; y] c e); [left; reflexivity|cbn [app]; solve [reads]]
            | eapply (Rp_at _ p l _ [x; y] c e); [right; left; reflexivity|cbn [app]; solve [reads]] ]
  end
with reads_one := first [ solve [reads] | choose ].
Lemma doc_ok n d A p enc s r : Modelled (Ty n []) A p enc -> Rp p d [] -> Runs (Ty n []) s r -> HasForm d s r.
Proof.
  intros M H R. apply (Runs_exact _ _ _ _ _ _ (Imp_Modelled _ _ _ _ M)) in R. destruct R as [a E]. apply (H _ _ _ _ _ E). constructor.
Qed.

(** *** The documented forms hold *)
(** The types whose documentation gives another form (below). *)
Definition other_form : list string :=
  ["CallbackDefinition"; "IdentifierOrString"; "StringifierMember"; "Special"; "AttributeNamespaceMember"].
Lemma forms_hold n f d s r : In (n, f) documented -> ~ In n other_form -> form_of f = Some d -> Runs (Ty n []) s r -> HasForm d s r.
Proof.
  intros Hx Hn. unfold documented in Hx. cbn [In] in Hx.
  repeat match goal with H : _ \/ _ |- _ => destruct H as [H|H] end; [..|contradiction]. all: injection Hx as <- <-; intros E R.
  all: try (exfalso; apply Hn; unfold other_form; cbn [In]; tauto).
  all: clear Hn; vm_compute in E; injection E as <-.
  all: eapply doc_ok; [constructor| reads | exact R].
Qed.
(** All of them are read. *)
Lemma forms_read : length documented = 52 /\ forallb (fun x => match form_of (snd x) with Some _ => true | None => false end) documented = true.
Proof. vm_compute. auto. Qed.

(** *** Those that do not *)
Lemma reads_word_inv w d s r t m : At t s m -> HasForm (AWord w :: d) s r -> t = word w /\ HasForm d m r.
Proof. intros Ht H. inversion H; subst. destruct (At_det _ _ _ _ _ Ht ltac:(eassumption)) as [-> ->]. auto. Qed.
Lemma reads_punct_inv w d s r t m : At t s m -> HasForm (APunct w :: d) s r -> t = TPunct w /\ HasForm d m r.
Proof. intros Ht H. inversion H; subst. destruct (At_det _ _ _ _ _ Ht ltac:(eassumption)) as [-> ->]. auto. Qed.
Lemma reads_opt_inv a d s r : HasForm (AOpt a :: d) s r -> HasForm (a ++ d) s r \/ HasForm d s r.
Proof. intros H. inversion H; subst; auto. Qed.
Lemma reads_alt_inv l d s r : HasForm (AAlt l :: d) s r -> exists a, In a l /\ HasForm (a ++ d) s r.
Proof. intros H. inversion H; subst; eauto. Qed.
Lemma reads_form_inv f d s r : HasForm (ANon f :: d) s r -> exists t m, In (f, t) forms /\ Runs t s m /\ HasForm d m r.
Proof. intros H. inversion H; subst. eauto 6. Qed.
(** A text that starts with a term. *)
Lemma at_term t s m : not_minus_dot t -> p_term t s = Ok m Datatypes.tt -> At (term_tok t) s m.
Proof. intros H E. apply (p_term_At t) in E; assumption. Qed.
Lemma run_exact n A p enc s r a : Modelled (Ty n []) A p enc -> parse_as p s = Ok r a -> Runs (Ty n []) s r.
Proof. intros M E. apply (Runs_exact _ _ _ _ _ _ (Imp_Modelled _ _ _ _ M)). exists a. exact E. Qed.
(** [callback f = any ();]: there are parentheses (src/lib.rs:117). *)
Lemma callback_form : forall d, form_of "[attributes]? callback identifier = type ( (arg1, arg2, ..., argN)? );" = Some d ->
  Runs (Ty "CallbackDefinition" []) (str "callback f = any ();") [] /\ ~ HasForm d (str "callback f = any ();") [].
Proof.
  intros d E. vm_compute in E. injection E as <-. split; [eapply run_exact; [constructor|vm_compute; reflexivity]|].
  set (s := str _). intros H. apply reads_opt_inv in H.
  assert (H' : HasForm [AWord "callback"; ANon "identifier"; APunct "="; ANon "type";
     AOpt [AWord "arg1"; APunct ","; AWord "arg2"; APunct ","; APunct "..."; APunct ","; AWord "argN"]; APunct ";"] s []).
  { destruct H as [H|H]; [|exact H]. cbn [app] in H.
    eapply reads_punct_inv in H; [|eapply (at_term Callback); [exact Logic.I|vm_compute; reflexivity]]. destruct H as [H _]. discriminate H. }
  clear H. eapply reads_word_inv in H'; [|eapply (at_term Callback); [exact Logic.I|vm_compute; reflexivity]]. destruct H' as [_ H].
  apply reads_form_inv in H. destruct H as (t & m & Hf & R & H).
  assert (t = Ty "Identifier" []) as -> by (cbn [forms In] in Hf; repeat (destruct Hf as [Hf|Hf]; [try discriminate Hf; injection Hf as <-; reflexivity|]); destruct Hf).
  clear Hf. apply (Runs_exact _ _ _ _ _ _ (Imp_Modelled _ _ _ _ M_Identifier)) in R. destruct R as [x R]. vm_compute in R. injection R as <- _. clear x.
  eapply reads_punct_inv in H; [|eapply (at_term Assign); [exact Logic.I|vm_compute; reflexivity]]. destruct H as [_ H].
  apply reads_form_inv in H. destruct H as (t & m' & Hf & R & H).
  assert (m' = str " ();" \/ m' = str "();") as Hm.
  { cbn [forms In] in Hf; repeat (destruct Hf as [Hf|Hf]; [try discriminate Hf; injection Hf as <-|]); [..|destruct Hf].
    - apply (Runs_exact _ _ _ _ _ _ (Imp_Modelled _ _ _ _ M_Type)) in R. destruct R as [y R]. vm_compute in R. injection R as <- _. vm_compute. auto.
    - apply (Runs_exact _ _ _ _ _ _ (Imp_Modelled _ _ _ _ M_ReturnType)) in R. destruct R as [y R]. vm_compute in R. injection R as <- _. vm_compute. auto.
    - apply (Runs_exact _ _ _ _ _ _ (Imp_Modelled _ _ _ _ M_ConstType)) in R. destruct R as [y R]. vm_compute in R. injection R as <- _. vm_compute. auto.
    - apply (Runs_exact _ _ _ _ _ _ (Imp_Modelled _ _ _ _ M_NonAnyType)) in R. destruct R as [y R]. vm_compute in R. injection R as <- _. vm_compute. auto. }
  apply reads_opt_inv in H. destruct Hm as [-> | ->]; destruct H as [H|H]; cbn [app] in H.
  all: first [eapply reads_word_inv in H | eapply reads_punct_inv in H]; [|eapply (at_term OpenParen); [exact Logic.I|vm_compute; reflexivity]].
  all: destruct H as [H _]; discriminate H.
Qed.
(** [x] (src/attribute.rs:60). *)
Lemma identifier_or_string_form : forall d, form_of "stringifier|static" = Some d ->
  Runs (Ty "IdentifierOrString" []) (str "x") [] /\ ~ HasForm d (str "x") [].
Proof.
  intros d E. vm_compute in E. injection E as <-. split; [eapply run_exact; [constructor|vm_compute; reflexivity]|].
  intros H. apply reads_alt_inv in H. destruct H as (a & [<-|[<-|[]]] & H); cbn [app] in H.
  all: inversion H; subst; match goal with H : At _ _ _ |- _ => revert H end.
  - change (word "stringifier") with (term_tok Stringifier). intros K. apply (p_term_At Stringifier _ _ Datatypes.tt Logic.I) in K. vm_compute in K. discriminate K.
  - change (word "static") with (term_tok Static). intros K. apply (p_term_At Static _ _ Datatypes.tt Logic.I) in K. vm_compute in K. discriminate K.
Qed.
(** Attributes (src/interface.rs:112). *)
Lemma stringifier_form : forall d, form_of "stringifier;" = Some d ->
  Runs (Ty "StringifierMember" []) (str "[A] stringifier;") [] /\ ~ HasForm d (str "[A] stringifier;") [].
Proof.
  intros d E. vm_compute in E. injection E as <-. split; [eapply run_exact; [constructor|vm_compute; reflexivity]|].
  intros H. eapply reads_word_inv in H; [|eapply (at_term OpenBracket); [exact Logic.I|vm_compute; reflexivity]]. destruct H as [H _]. discriminate H.
Qed.
(** [legacycaller] (src/interface.rs:121). *)
Lemma special_form : forall d, form_of "getter|setter|deleter" = Some d ->
  Runs (Ty "Special" []) (str "legacycaller") [] /\ ~ HasForm d (str "legacycaller") [].
Proof.
  intros d E. vm_compute in E. injection E as <-. split; [eapply run_exact; [constructor|vm_compute; reflexivity]|].
  intros H. apply reads_alt_inv in H. destruct H as (a & [<-|[<-|[<-|[]]]] & H); cbn [app] in H.
  all: eapply reads_word_inv in H; [|eapply (at_term LegacyCaller); [exact Logic.I|vm_compute; reflexivity]]; destruct H as [H _]; discriminate H.
Qed.
(** [attributetype] (src/namespace.rs:33). *)
Lemma namespace_attribute_form : forall d, form_of "[attribute]? readonly attributetype type identifier;" = Some d ->
  Runs (Ty "AttributeNamespaceMember" []) (str "readonly attribute long x;") [] /\ ~ HasForm d (str "readonly attribute long x;") [].
Proof.
  intros d E. vm_compute in E. injection E as <-. split; [eapply run_exact; [constructor|vm_compute; reflexivity]|].
  intros H. apply reads_opt_inv in H. destruct H as [H|H]; cbn [app] in H.
  - eapply reads_punct_inv in H; [|eapply (at_term ReadOnly); [exact Logic.I|vm_compute; reflexivity]]; destruct H as [H _]; discriminate H.
  - eapply reads_word_inv in H; [|eapply (at_term ReadOnly); [exact Logic.I|vm_compute; reflexivity]]; destruct H as [_ H].
    eapply reads_word_inv in H; [|eapply (at_term Attribute); [exact Logic.I|vm_compute; reflexivity]]; destruct H as [H _]; discriminate H.
Qed.
Definition forms_refuted : forall n, In n other_form ->
  exists f d s, In (n, f) documented /\ form_of f = Some d /\ Runs (Ty n []) s [] /\ ~ HasForm d s [].
Proof.
  intros n Hn. cbn [other_form In] in Hn. repeat destruct Hn as [<-|Hn]; [..|destruct Hn].
  - exists "[attributes]? callback identifier = type ( (arg1, arg2, ..., argN)? );". eexists _, _. split; [unfold documented; cbn [In]; tauto|].
    split; [vm_compute; reflexivity|]. apply callback_form. vm_compute. reflexivity.
  - exists "stringifier|static". eexists _, _. split; [unfold documented; cbn [In]; tauto|].
    split; [vm_compute; reflexivity|]. apply identifier_or_string_form. vm_compute. reflexivity.
  - exists "stringifier;". eexists _, _. split; [unfold documented; cbn [In]; tauto|].
    split; [vm_compute; reflexivity|]. apply stringifier_form. vm_compute. reflexivity.
  - exists "getter|setter|deleter". eexists _, _. split; [unfold documented; cbn [In]; tauto|].
    split; [vm_compute; reflexivity|]. apply special_form. vm_compute. reflexivity.
  - exists "[attribute]? readonly attributetype type identifier;". eexists _, _. split; [unfold documented; cbn [In]; tauto|].
    split; [vm_compute; reflexivity|]. apply namespace_attribute_form. vm_compute. reflexivity.
Qed.

(** ** The terms *)
(** The symbol in the documentation of a term ([Represents the terminal symbol `x`]). *)
Definition symbol (l : list string) : option string :=
  match l with [s] => match ticked s with Some (a, _) => Some a | None => None end | _ => None end.
Lemma terms_documented t : t <> NegInfinity -> t <> BufferSource ->
  exists n l x, term_type t = ("term::" ++ n)%string /\ In (n, l) term_docs /\ symbol l = Some x /\ x = term_text t.
Proof.
  intros H1 H2.
  assert (K : existsb (fun e => String.eqb (term_type t) ("term::" ++ fst e) && match symbol (snd e) with Some x => String.eqb x (term_text t) | None => false end) term_docs = true)
    by (destruct t; try contradiction; vm_compute; reflexivity).
  apply existsb_exists in K. destruct K as ((n & l) & Hl & K). cbn [fst snd] in K. apply andb_prop in K. destruct K as [K1 K2].
  apply String.eqb_eq in K1. destruct (symbol l) as [x|] eqn:E; [|discriminate K2]. apply String.eqb_eq in K2. exists n, l, x. auto.
Qed.
(** [NegInfinity] is documented with another symbol (src/term.rs:184). *)
Lemma neg_infinity_documented : exists l, In ("NegInfinity", l) term_docs /\ symbol l = Some "Infinity" /\
  Runs (Ty "term::NegInfinity" []) (str "-Infinity") [] /\ forall r, ~ Runs (Ty "term::NegInfinity" []) (str "Infinity") r.
Proof.
  exists ["/// Represents the terminal symbol `Infinity`"]. split; [unfold term_docs; cbn [In]; tauto|]. split; [vm_compute; reflexivity|].
  pose proof (Imp_Modelled _ _ _ _ (M_term NegInfinity)) as M. change (tterm NegInfinity) with (Ty "term::NegInfinity" []) in M. split.
  - apply (Runs_exact _ _ _ _ _ _ M). exists Datatypes.tt. vm_compute. reflexivity.
  - intros r R. apply (Runs_exact _ _ _ _ _ _ M) in R. destruct R as [a R]. vm_compute in R. discriminate R.
Qed.

(** ** The examples *)
(** A text between ticks as it is meant: [((], [))] and [??] are single characters. *)
Fixpoint meant (s : string) : string :=
  match s with
  | String c (String d s' as r) =>
      if Ascii.eqb c d && existsb (Ascii.eqb c) ["("; ")"; "?"]%char then String c (meant s') else String c (meant r)
  | _ => s
  end.
(** The parts between [|]. *)
Fixpoint bars (acc : string) (s : string) : list string :=
  match s with
  | EmptyString => [acc]
  | String c s' => if Ascii.eqb c "|" then acc :: bars "" s' else bars (acc ++ String c "") s'
  end.
Fixpoint after (a s : string) : option string :=
  if prefix a s then Some (substring (String.length a) (String.length s) s)
  else match s with EmptyString => None | String _ s' => after a s' end.
Definition doc_examples (d : string * list string) : list (string * string) :=
  flat_map (fun l => match after "Ex: " l with
                     | Some e => match ticked e with Some (a, _) => map (fun x => (fst d, meant x)) (bars "" a) | None => [] end
                     | None => []
                     end) (snd d).
Definition examples : list (string * string) := Eval vm_compute in flat_map doc_examples (flat_map (fun f => file_docs (snd f)) sources).
(** The type of an example; that of [MayBeNull] is one of [object]. *)
Definition example_type (n : string) : rty :=
  if String.eqb n "MayBeNull" then Ty "MayBeNull" [Ty "term::Object" []] else norm crate_items (Ty n []).
Lemma examples_parse n e : In (n, e) examples -> exists rest, Runs (example_type n) (str e) rest /\ forall c, In c rest -> c = 32%N.
Proof.
  intros H. unfold examples in H. cbn [In] in H. repeat destruct H as [H|H]; [..|destruct H]. all: injection H as <- <-.
  all: match goal with |- context[example_type ?x] => let t := eval vm_compute in (example_type x) in change (example_type x) with t end.
  all: eexists; split.
  all: try match goal with |- Runs ?t _ _ =>
    eapply Runs_exact;
    [ lazymatch t with
      | Ty "Punctuated" [?u; _] => eapply Imp_Modelled, (M_Punctuated u _ _ _ Comma); constructor
      | Ty "Bracketed" [Ty "Punctuated" [?u; _]] => eapply Imp_Modelled, M_Bracketed, (M_Punctuated u _ _ _ Comma); constructor
      | Ty "MayBeNull" _ => eapply Imp_Modelled, M_MayBeNull, (M_term Object)
      | _ => constructor; constructor
      end
    | eexists; vm_compute; reflexivity ] end.
  all: cbn [In]; intros c Hc; repeat destruct Hc as [<-|Hc]; try reflexivity; contradiction.
Qed.

(** ** The programs in the documentation *)
Fixpoint lines_of (n : nat) (s : string) : list string :=
  match n, s with
  | S n, String _ _ => let '(a, b) := take eol s in a :: lines_of n (substring 1 (String.length b) b)
  | _, _ => []
  end.
(** The text of a documentation comment. *)
Definition comment (s : string) : option string :=
  let t := snd (take space s) in
  if prefix "///" t || prefix "//!" t then Some (substring (if prefix " " (substring 3 1 t) then 4 else 3) (String.length t) t) else None.
(** What is between the lines [```]. *)
Fixpoint fences (inside : bool) (acc : string) (l : list string) : list string :=
  match l with
  | [] => []
  | x :: l' =>
      match comment x with
      | Some c => if prefix "```" c then if inside then acc :: fences false "" l' else fences true "" l'
                  else fences inside (if inside then acc ++ c ++ String (ascii_of_nat 10) "" else acc)%string l'
      | None => fences false "" l'
      end
  end.
Definition doc_programs : list string := Eval vm_compute in
  flat_map (fun f => fences false "" (lines_of (String.length (snd f)) (snd f))) sources.
(** Without [extern crate] and [println!]. *)
Fixpoint quiet (n : nat) (l : list tt) : list tt :=
  match n, l with
  | S n, I x :: l' =>
      if String.eqb x "extern" || String.eqb x "println" then quiet n (snd (upto (is_p ";") l')) else I x :: quiet n l'
  | S n, t :: l' => t :: quiet n l'
  | _, _ => []
  end.
Definition doc_tests : list unit_test := Eval vm_compute in
  map (fun s => ("lib", tstmts_of all_macros "lib" tdepth (quiet 1000 (tokens s)))) doc_programs.
Lemma doc_tests_pass : length doc_tests = 3 /\ forall t, In t doc_tests -> run_test (call 100) t = Pass.
Proof.
  split; [reflexivity|]. assert (H : forallb (fun t => passes (run_test (call 100) t)) doc_tests = true) by (vm_compute; reflexivity).
  intros t Ht. apply (proj1 (forallb_forall _ _) H) in Ht. destruct (run_test (call 100) t); [reflexivity|discriminate Ht..].
Qed.
(** What was evaluated above. *)
Lemma docs_read :
  documented = filter (fun d => not_generic (fst d)) (flat_map doc_form (flat_map file_docs type_files)) /\
  term_docs = file_docs Source.src_term /\
  examples = flat_map doc_examples (flat_map (fun f => file_docs (snd f)) sources) /\
  doc_tests = map (fun s => ("lib", tstmts_of all_macros "lib" tdepth (quiet 1000 (tokens s))))
    (flat_map (fun f => fences false "" (lines_of (String.length (snd f)) (snd f))) sources).
Proof.
  split; [vm_cast_no_check (eq_refl documented)|]. split; [vm_cast_no_check (eq_refl term_docs)|].
  split; [vm_cast_no_check (eq_refl examples)|vm_cast_no_check (eq_refl doc_tests)].
Qed.
