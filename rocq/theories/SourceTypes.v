(** * The model is what the source says: the types made by [ast_types!], and [parse] *)
From Coq Require Import String Ascii NArith Arith Bool List Lia.
From Verif Require Import Nom Lex Ast Grammar RunFacts Api ApiFacts Source Crate Interp Embed Faithful SourceLex.
Import ListNotations.
Open Scope string_scope.
Open Scope list_scope.

(** The same for a parser of the grammar, with recursion up to depth [m]. *)
Definition SrcP {A} (m : nat) (p : pexp A) (t : rty) (enc : A -> value) : Prop := Src (trun m A p) t enc.

Lemma run_map m A B (f : A -> B) (p : pexp A) i : trun m B (PMap f p) i = bind (trun m A p) (fun v => ret (f v)) i.
Proof. unfold PMap. rewrite run_bind. unfold bind. destruct (trun m A p i); [|reflexivity|reflexivity]. rewrite run_ret. reflexivity. Qed.
Lemma run_pair m a b A (k : pexp A) i :
  trun m A (T_ a ;;; T_ b ;;; k) i = bind (bind (p_term a) (fun _ => bind (p_term b) (fun _ => ret tt))) (fun _ => trun m A k) i.
Proof.
  rewrite run_bind. unfold T_. rewrite run_term. cbn [text_sem]. unfold bind. destruct (p_term a i) as [r v|e|]; [|reflexivity|reflexivity].
  rewrite run_bind, run_term. cbn [text_sem]. unfold bind, ret. destruct (p_term b r); reflexivity.
Qed.
Lemma run_terminated m A B (p : pexp A) (q : pexp B) i :
  trun m A (l <- p ;; q ;;; PRet l) i = bind (trun m A p) (fun v => bind (trun m B q) (fun _ => ret v)) i.
Proof.
  rewrite run_bind. unfold bind. destruct (trun m A p i); [|reflexivity|reflexivity]. rewrite run_bind. unfold bind.
  destruct (trun m B q rest); [|reflexivity|reflexivity]. rewrite run_ret. reflexivity.
Qed.
(** cond! *)
Lemma ref_cond fuel cl te self A (enc : A -> value) e i c p P j b : eval fuel cl te self e i = Val (VStr j) -> eval fuel cl te self e c = vbool b ->
  Ref enc (P j) (eval fuel cl te self (inp j e) p) ->
  Ref (enc_Option enc) ((if b then bind P (fun v => ret (Some v)) else ret None) j) (eval fuel cl te self e (ECond i c p)).
Proof.
  intros Hi Hc H. cbn [eval]. rewrite Hi, Hc. destruct b; [|reflexivity]. cbn [vbool]. apply ref_u in H. unfold bind, ret.
  destruct (P j); cbn in H; try rewrite H; try reflexivity; exact Logic.I.
Qed.
Lemma run_cond m A b (p : pexp A) i : trun m (option A) (PCond b p) i = (if b then bind (trun m A p) (fun v => ret (Some v)) else ret None) i.
Proof. unfold PCond. destruct b; [apply run_map|rewrite run_ret; reflexivity]. Qed.
Ltac condfield K :=
  rewrite run_bind; eapply ref_field;
  [rewrite run_map; eapply (ref_map _ _ _ _ _ _ (enc_Option (enc_Option enc_Default)) (enc_Option enc_Default));
   [reflexivity
   |rewrite run_cond; eapply ref_cond; [reflexivity| |eapply ref_parse; [reflexivity|apply K]]
   |]
  |intros ? ?].
Ltac field K := rewrite run_bind; eapply ref_field; [eapply ref_parse; [reflexivity|apply K]|let r := fresh "r" in let v := fresh "v" in intros r v].
Ltac pairfield K := rewrite run_pair; eapply ref_field; [eapply ref_parse; [reflexivity|apply K]|intros ? ?].
Ltac recfield K := rewrite run_bind; eapply ref_field; [eapply ref_parse; [reflexivity|apply K]|intros ? [? ?]].
Ltac fin := rewrite run_ret; eapply ref_ok; reflexivity.
Ltac arm K := rewrite run_or; eapply ref_alt; [reflexivity|rewrite run_map; eapply ref_map; [reflexivity|eapply ref_parse; [reflexivity|apply K]|reflexivity]|].
Ltac finalt := rewrite run_end; eapply ref_altend; reflexivity.

(** ** src/common.rs, [term!] and literals *)
Section Types.
Context (m : nat).
Lemma src_T t : SrcP m (T_ t) (tterm t) (enc_term t).
Proof. exists 2. intros [|[|n]] Hn; try lia. unfold T_. rewrite run_term. apply src_term. Qed.
Lemma src_Identifier_ : SrcP m e_Identifier (Ty "Identifier" []) enc_Identifier.
Proof. exists 2. intros [|[|n]] Hn; try lia. unfold e_Identifier. rewrite run_term. apply src_Identifier. Qed.
Lemma src_StringLit_ : SrcP m (PTerm TmStringLit) (Ty "StringLit" []) enc_StringLit.
Proof. exists 2. intros [|[|n]] Hn; try lia. rewrite run_term. apply src_StringLit. Qed.
Lemma src_DefaultValue_ : SrcP m (PTerm TmDefaultValue) (Ty "DefaultValue" []) enc_DefaultValue.
Proof. exists 4. intros [|[|[|[|n]]]] Hn; try lia. rewrite run_term. apply src_DefaultValue. Qed.
Lemma src_ConstValue_ : SrcP m (PTerm TmConstValue) (Ty "ConstValue" []) enc_ConstValue.
Proof. exists 4. intros [|[|[|[|n]]]] Hn; try lia. rewrite run_term. apply src_ConstValue. Qed.
Lemma src_pair a b : Src (bind (p_term a) (fun _ => bind (p_term b) (fun _ => ret tt))) (TyTuple [tterm a; tterm b]) (fun _ => VTup [enc_term a tt; enc_term b tt]).
Proof.
  exists 3. intros [|[|[|n]]] Hn; try lia. intro i. enter.
  eapply ref_step; [reflexivity|eapply ref_parse; [reflexivity|apply (src_term n a)]|intros r v].
  eapply ref_step; [reflexivity|eapply ref_parse; [reflexivity|apply (src_term n b)]|intros r' v'].
  eapply ref_done; [reflexivity|]. destruct v, v'. reflexivity.
Qed.
Lemma src_Option A (p : pexp A) t enc : SrcP m p t enc -> SrcP m (e_Option p) (Ty "Option" [t]) (enc_Option enc).
Proof.
  intros H. refine (ev_S _ _ H _). intros n K i. enter. unfold e_Option. rewrite run_opt. eapply ref_opt; [reflexivity|].
  eapply ref_parse; [reflexivity|apply K].
Qed.
Lemma src_Box A (p : pexp A) t enc : SrcP m p t enc -> SrcP m p (Ty "Box" [t]) (enc_Box enc).
Proof.
  intros H. refine (ev_S _ _ H _). intros n K i. enter. apply ref_ret. eapply ref_step; [reflexivity|eapply ref_parse; [reflexivity|apply K]|intros r v].
  eapply ref_done; reflexivity.
Qed.
Lemma src_Vec A (p : pexp A) t enc : SrcP m p t enc -> SrcP m (e_Vec p) (Ty "Vec" [t]) (enc_Vec enc).
Proof.
  intros H. refine (ev_S _ _ (ev_and _ _ H (ev_ge m)) _). intros n (K & Hn) i. enter. unfold e_Vec. rewrite run_many0. eapply ref_many0; [reflexivity| |lia].
  intro j. eapply ref_parse; [reflexivity|apply K].
Qed.
Lemma src_Parenthesized A (p : pexp A) t enc : SrcP m p t enc -> SrcP m (e_Parenthesized p) (Ty "Parenthesized" [t]) (enc_Parenthesized enc).
Proof.
  intros H. refine (ev_S _ _ (ev_and _ _ H (ev_and _ _ (src_T OpenParen) (src_T CloseParen))) _). intros n (K & K1 & K2) i. enter. unfold e_Parenthesized.
  field K1. field K. field K2. fin.
Qed.
Lemma src_Bracketed A (p : pexp A) t enc : SrcP m p t enc -> SrcP m (e_Bracketed p) (Ty "Bracketed" [t]) (enc_Bracketed enc).
Proof.
  intros H. refine (ev_S _ _ (ev_and _ _ H (ev_and _ _ (src_T OpenBracket) (src_T CloseBracket))) _). intros n (K & K1 & K2) i. enter. unfold e_Bracketed.
  field K1. field K. field K2. fin.
Qed.
Lemma src_Braced A (p : pexp A) t enc : SrcP m p t enc -> SrcP m (e_Braced p) (Ty "Braced" [t]) (enc_Braced enc).
Proof.
  intros H. refine (ev_S _ _ (ev_and _ _ H (ev_and _ _ (src_T OpenBrace) (src_T CloseBrace))) _). intros n (K & K1 & K2) i. enter. unfold e_Braced.
  field K1. field K. field K2. fin.
Qed.
Lemma src_Generics A (p : pexp A) t enc : SrcP m p t enc -> SrcP m (e_Generics p) (Ty "Generics" [t]) (enc_Generics enc).
Proof.
  intros H. refine (ev_S _ _ (ev_and _ _ H (ev_and _ _ (src_T LessThan) (src_T GreaterThan))) _). intros n (K & K1 & K2) i. enter. unfold e_Generics.
  field K1. field K. field K2. fin.
Qed.
Lemma src_MayBeNull (A : Set) (p : pexp A) t enc : SrcP m p t enc -> SrcP m (e_MayBeNull p) (Ty "MayBeNull" [t]) (enc_MayBeNull enc).
Proof.
  intros H. refine (ev_S _ _ (ev_and _ _ H (src_Option _ _ _ _ (src_T QMark))) _). intros n (K & K1) i. enter. unfold e_MayBeNull.
  field K. field K1. fin.
Qed.
Lemma src_triple A sep B (p : pexp A) (q : pexp B) t u ep eq : SrcP m p t ep -> SrcP m q u eq ->
  SrcP m (e_triple p sep q) (TyTuple [t; tterm sep; u]) (enc_triple ep (enc_term sep tt) eq).
Proof.
  intros H H'. refine (ev_S _ _ (ev_and _ _ H (ev_and _ _ H' (src_T sep))) _). intros n (K & K1 & K2) i. enter. unfold e_triple.
  rewrite run_bind. eapply ref_step; [reflexivity|eapply ref_parse; [reflexivity|apply K]|intros r v].
  rewrite run_bind. eapply ref_step; [reflexivity|eapply ref_parse; [reflexivity|apply K2]|intros r' v'].
  rewrite run_bind. eapply ref_step; [reflexivity|eapply ref_parse; [reflexivity|apply K1]|intros r'' v''].
  rewrite run_ret. eapply ref_done; [reflexivity|]. destruct v'. reflexivity.
Qed.
Lemma src_Punctuated A sep (p : pexp A) t enc : SrcP m p t enc -> default (tterm sep) = Some (vt (term_type sep)) ->
  SrcP m (e_Punctuated p sep) (Ty "Punctuated" [t; tterm sep]) (enc_Punctuated (vt (term_type sep)) enc).
Proof.
  pose proof (src_T sep) as S. unfold enc_term, tterm in *. revert S. generalize (term_type sep). intros s S H D.
  refine (ev_S _ _ (ev_and _ _ H (ev_and _ _ S (ev_ge m))) _). intros n (K & K1 & Hn) i. enter. unfold e_Punctuated.
  rewrite run_bind. eapply ref_field.
  - rewrite run_seplist. eapply ref_sep; [reflexivity| | |lia].
    + intro j. eapply ref_parse; [reflexivity|apply K1].
    + intro j. eapply ref_parse; [reflexivity|apply K].
  - intros r v. apply ref_default. rewrite run_ret. eapply ref_ok; [reflexivity|]. cbn -[default]. rewrite D. reflexivity.
Qed.
Lemma src_PunctuatedNonEmpty A sep (p : pexp A) t enc : SrcP m p t enc -> default (tterm sep) = Some (vt (term_type sep)) ->
  SrcP m (e_PunctuatedNonEmpty p sep) (Ty "PunctuatedNonEmpty" [t; tterm sep]) (enc_PunctuatedNonEmpty (vt (term_type sep)) enc).
Proof.
  pose proof (src_T sep) as S. unfold enc_term, tterm in *. revert S. generalize (term_type sep). intros s S H D.
  refine (ev_S _ _ (ev_and _ _ H (ev_and _ _ S (ev_ge m))) _). intros n (K & K1 & Hn) i. enter. unfold e_PunctuatedNonEmpty.
  rewrite run_bind. eapply ref_field.
  - rewrite run_terminated, run_sepnonempty, run_opt. eapply (ref_terminated _ _ _ _ _ _ (enc_Vec enc) (enc_Option (vu s))).
    + reflexivity.
    + intro j. eapply ref_sep1; [reflexivity| | |lia].
      * intro k. eapply ref_parse; [reflexivity|apply K1].
      * intro k. eapply ref_parse; [reflexivity|apply K].
    + intro j. eapply ref_opt; [reflexivity|]. eapply ref_parse; [reflexivity|apply K1].
  - intros r v. apply ref_default. rewrite run_ret. eapply ref_ok; [reflexivity|]. cbn -[default]. rewrite D. reflexivity.
Qed.

(** ** The declarations *)
Context (R_Type : SrcP m (PNT NT_Type) (Ty "Type" []) enc_Type) (R_ReturnType : SrcP m (PNT NT_ReturnType) (Ty "ReturnType" []) enc_ReturnType)
  (R_RecordKeyType : SrcP m (PNT NT_RecordKeyType) (Ty "RecordKeyType" []) enc_RecordKeyType)
  (R_UnionMemberType : SrcP m (PNT NT_UnionMemberType) (Ty "UnionMemberType" []) enc_UnionMemberType)
  (R_ExtendedAttribute : SrcP m (PNT NT_ExtendedAttribute) (Ty "ExtendedAttribute" []) enc_ExtendedAttribute).
Lemma src_PromiseType : SrcP m e_PromiseType (Ty "PromiseType" []) enc_PromiseType.
Proof.
  refine (ev_S _ _ (ev_and _ _ (src_T Promise) (ev_and _ _ (src_Generics _ _ _ _ (src_Box _ _ _ _ R_ReturnType)) (ev_ge 0))) _). intros n (K0 & K1 & _) i. enter. unfold e_PromiseType.
  field K0. field K1. fin.
Qed.
Lemma src_LongLongType : SrcP m e_LongLongType (Ty "LongLongType" []) enc_LongLongType.
Proof.
  refine (ev_S _ _ (ev_and _ _ (src_Option _ _ _ _ (src_T Unsigned)) (ev_and _ _ (src_pair Long Long) (ev_ge 0))) _). intros n (K0 & K1 & _) i. enter. unfold e_LongLongType.
  field K0. pairfield K1. fin.
Qed.
Lemma src_LongType : SrcP m e_LongType (Ty "LongType" []) enc_LongType.
Proof.
  refine (ev_S _ _ (ev_and _ _ (src_Option _ _ _ _ (src_T Unsigned)) (ev_and _ _ (src_T Long) (ev_ge 0))) _). intros n (K0 & K1 & _) i. enter. unfold e_LongType.
  field K0. field K1. fin.
Qed.
Lemma src_ShortType : SrcP m e_ShortType (Ty "ShortType" []) enc_ShortType.
Proof.
  refine (ev_S _ _ (ev_and _ _ (src_Option _ _ _ _ (src_T Unsigned)) (ev_and _ _ (src_T Short) (ev_ge 0))) _). intros n (K0 & K1 & _) i. enter. unfold e_ShortType.
  field K0. field K1. fin.
Qed.
Lemma src_IntegerType : SrcP m e_IntegerType (Ty "IntegerType" []) enc_IntegerType.
Proof.
  refine (ev_S _ _ (ev_and _ _ src_LongLongType (ev_and _ _ src_LongType (ev_and _ _ src_ShortType (ev_ge 0)))) _). intros n (K0 & K1 & K2 & _) i. enter. unfold e_IntegerType; cbn [PAlt].
  arm K0. arm K1. arm K2. finalt.
Qed.
Lemma src_FloatType : SrcP m e_FloatType (Ty "FloatType" []) enc_FloatType.
Proof.
  refine (ev_S _ _ (ev_and _ _ (src_Option _ _ _ _ (src_T Unrestricted)) (ev_and _ _ (src_T Float) (ev_ge 0))) _). intros n (K0 & K1 & _) i. enter. unfold e_FloatType.
  field K0. field K1. fin.
Qed.
Lemma src_DoubleType : SrcP m e_DoubleType (Ty "DoubleType" []) enc_DoubleType.
Proof.
  refine (ev_S _ _ (ev_and _ _ (src_Option _ _ _ _ (src_T Unrestricted)) (ev_and _ _ (src_T Double) (ev_ge 0))) _). intros n (K0 & K1 & _) i. enter. unfold e_DoubleType.
  field K0. field K1. fin.
Qed.
Lemma src_FloatingPointType : SrcP m e_FloatingPointType (Ty "FloatingPointType" []) enc_FloatingPointType.
Proof.
  refine (ev_S _ _ (ev_and _ _ src_FloatType (ev_and _ _ src_DoubleType (ev_ge 0))) _). intros n (K0 & K1 & _) i. enter. unfold e_FloatingPointType; cbn [PAlt].
  arm K0. arm K1. finalt.
Qed.
Lemma src_SequenceType : SrcP m e_SequenceType (Ty "SequenceType" []) enc_SequenceType.
Proof.
  refine (ev_S _ _ (ev_and _ _ (src_T Sequence) (ev_and _ _ (src_Generics _ _ _ _ (src_Box _ _ _ _ R_Type)) (ev_ge 0))) _). intros n (K0 & K1 & _) i. enter. unfold e_SequenceType.
  field K0. field K1. fin.
Qed.
Lemma src_FrozenArrayType : SrcP m e_FrozenArrayType (Ty "FrozenArrayType" []) enc_FrozenArrayType.
Proof.
  refine (ev_S _ _ (ev_and _ _ (src_T FrozenArray) (ev_and _ _ (src_Generics _ _ _ _ (src_Box _ _ _ _ R_Type)) (ev_ge 0))) _). intros n (K0 & K1 & _) i. enter. unfold e_FrozenArrayType.
  field K0. field K1. fin.
Qed.
Lemma src_RecordType : SrcP m e_RecordType (Ty "RecordType" []) enc_RecordType.
Proof.
  refine (ev_S _ _ (ev_and _ _ (src_T Record_) (ev_and _ _ (src_Generics _ _ _ _ (src_triple _ Comma _ _ _ _ _ _ _ (src_Box _ _ _ _ R_RecordKeyType) (src_Box _ _ _ _ R_Type))) (ev_ge 0))) _). intros n (K0 & K1 & _) i. enter. unfold e_RecordType.
  field K0. recfield K1. fin.
Qed.
Lemma src_NonAnyType : SrcP m e_NonAnyType (Ty "NonAnyType" []) enc_NonAnyType.
Proof.
  refine (ev_S _ _ (ev_and _ _ src_PromiseType (ev_and _ _ (src_MayBeNull _ _ _ _ src_IntegerType) (ev_and _ _ (src_MayBeNull _ _ _ _ src_FloatingPointType) (ev_and _ _ (src_MayBeNull _ _ _ _ (src_T Boolean)) (ev_and _ _ (src_MayBeNull _ _ _ _ (src_T Byte)) (ev_and _ _ (src_MayBeNull _ _ _ _ (src_T Octet)) (ev_and _ _ (src_MayBeNull _ _ _ _ (src_T ByteString)) (ev_and _ _ (src_MayBeNull _ _ _ _ (src_T DOMString)) (ev_and _ _ (src_MayBeNull _ _ _ _ (src_T USVString)) (ev_and _ _ (src_MayBeNull _ _ _ _ src_SequenceType) (ev_and _ _ (src_MayBeNull _ _ _ _ (src_T Object)) (ev_and _ _ (src_MayBeNull _ _ _ _ (src_T Symbol)) (ev_and _ _ (src_MayBeNull _ _ _ _ (src_T Error_)) (ev_and _ _ (src_MayBeNull _ _ _ _ (src_T ArrayBuffer)) (ev_and _ _ (src_MayBeNull _ _ _ _ (src_T DataView)) (ev_and _ _ (src_MayBeNull _ _ _ _ (src_T Int8Array)) (ev_and _ _ (src_MayBeNull _ _ _ _ (src_T Int16Array)) (ev_and _ _ (src_MayBeNull _ _ _ _ (src_T Int32Array)) (ev_and _ _ (src_MayBeNull _ _ _ _ (src_T Uint8Array)) (ev_and _ _ (src_MayBeNull _ _ _ _ (src_T Uint16Array)) (ev_and _ _ (src_MayBeNull _ _ _ _ (src_T Uint32Array)) (ev_and _ _ (src_MayBeNull _ _ _ _ (src_T Uint8ClampedArray)) (ev_and _ _ (src_MayBeNull _ _ _ _ (src_T Float32Array)) (ev_and _ _ (src_MayBeNull _ _ _ _ (src_T Float64Array)) (ev_and _ _ (src_MayBeNull _ _ _ _ (src_T ArrayBufferView)) (ev_and _ _ (src_MayBeNull _ _ _ _ (src_T BufferSource)) (ev_and _ _ (src_MayBeNull _ _ _ _ src_FrozenArrayType) (ev_and _ _ (src_MayBeNull _ _ _ _ src_RecordType) (ev_and _ _ (src_MayBeNull _ _ _ _ (src_Identifier_)) (ev_ge 0)))))))))))))))))))))))))))))) _). intros n (K0 & K1 & K2 & K3 & K4 & K5 & K6 & K7 & K8 & K9 & K10 & K11 & K12 & K13 & K14 & K15 & K16 & K17 & K18 & K19 & K20 & K21 & K22 & K23 & K24 & K25 & K26 & K27 & K28 & _) i. enter. unfold e_NonAnyType; cbn [PAlt].
  arm K0. arm K1. arm K2. arm K3. arm K4. arm K5. arm K6. arm K7. arm K8. arm K9. arm K10. arm K11. arm K12. arm K13. arm K14. arm K15. arm K16. arm K17. arm K18. arm K19. arm K20. arm K21. arm K22. arm K23. arm K24. arm K25. arm K26. arm K27. arm K28. finalt.
Qed.
Lemma src_SingleType : SrcP m e_SingleType (Ty "SingleType" []) enc_SingleType.
Proof.
  refine (ev_S _ _ (ev_and _ _ (src_T Any) (ev_and _ _ src_NonAnyType (ev_ge 0))) _). intros n (K0 & K1 & _) i. enter. unfold e_SingleType; cbn [PAlt].
  arm K0. arm K1. finalt.
Qed.
Lemma src_Type : SrcP m e_Type (Ty "Type" []) enc_Type.
Proof.
  refine (ev_S _ _ (ev_and _ _ src_SingleType (ev_and _ _ (src_MayBeNull _ _ _ _ (src_Parenthesized _ _ _ _ (src_Punctuated _ Or _ _ _ R_UnionMemberType eq_refl))) (ev_ge 0))) _). intros n (K0 & K1 & _) i. enter. unfold e_Type; cbn [PAlt].
  arm K0. arm K1. finalt.
Qed.
Lemma src_AttributedType : SrcP m e_AttributedType (Ty "AttributedType" []) enc_AttributedType.
Proof.
  refine (ev_S _ _ (ev_and _ _ (src_Option _ _ _ _ (src_Bracketed _ _ _ _ (src_Punctuated _ Comma _ _ _ R_ExtendedAttribute eq_refl))) (ev_and _ _ src_Type (ev_ge 0))) _). intros n (K0 & K1 & _) i. enter. unfold e_AttributedType.
  field K0. field K1. fin.
Qed.
Lemma src_Default : SrcP m e_Default (Ty "Default" []) enc_Default.
Proof.
  refine (ev_S _ _ (ev_and _ _ (src_T Assign) (ev_and _ _ (src_DefaultValue_) (ev_ge 0))) _). intros n (K0 & K1 & _) i. enter. unfold e_Default.
  field K0. field K1. fin.
Qed.
Lemma src_SingleArgument : SrcP m e_SingleArgument (Ty "SingleArgument" []) enc_SingleArgument.
Proof.
  refine (ev_S _ _ (ev_and _ _ (src_Option _ _ _ _ (src_Bracketed _ _ _ _ (src_Punctuated _ Comma _ _ _ R_ExtendedAttribute eq_refl))) (ev_and _ _ (src_Option _ _ _ _ (src_T Optional)) (ev_and _ _ src_AttributedType (ev_and _ _ (src_Identifier_) (ev_and _ _ (src_Option _ _ _ _ src_Default) (ev_ge 0)))))) _). intros n (K0 & K1 & K2 & K3 & K4 & _) i. enter. unfold e_SingleArgument.
  field K0. field K1. field K2. field K3. condfield K4; [destruct v0; reflexivity|intros [?|]; reflexivity|]. fin.
Qed.
Lemma src_VariadicArgument : SrcP m e_VariadicArgument (Ty "VariadicArgument" []) enc_VariadicArgument.
Proof.
  refine (ev_S _ _ (ev_and _ _ (src_Option _ _ _ _ (src_Bracketed _ _ _ _ (src_Punctuated _ Comma _ _ _ R_ExtendedAttribute eq_refl))) (ev_and _ _ src_Type (ev_and _ _ (src_T Ellipsis) (ev_and _ _ (src_Identifier_) (ev_ge 0))))) _). intros n (K0 & K1 & K2 & K3 & _) i. enter. unfold e_VariadicArgument.
  field K0. field K1. field K2. field K3. fin.
Qed.
Lemma src_Argument : SrcP m e_Argument (Ty "Argument" []) enc_Argument.
Proof.
  refine (ev_S _ _ (ev_and _ _ src_SingleArgument (ev_and _ _ src_VariadicArgument (ev_ge 0))) _). intros n (K0 & K1 & _) i. enter. unfold e_Argument; cbn [PAlt].
  arm K0. arm K1. finalt.
Qed.
Lemma src_ExtendedAttributeArgList : SrcP m e_ExtendedAttributeArgList (Ty "ExtendedAttributeArgList" []) enc_ExtendedAttributeArgList.
Proof.
  refine (ev_S _ _ (ev_and _ _ (src_Identifier_) (ev_and _ _ (src_Parenthesized _ _ _ _ (src_Punctuated _ Comma _ _ _ src_Argument eq_refl)) (ev_ge 0))) _). intros n (K0 & K1 & _) i. enter. unfold e_ExtendedAttributeArgList.
  field K0. field K1. fin.
Qed.
Lemma src_ExtendedAttributeNamedArgList : SrcP m e_ExtendedAttributeNamedArgList (Ty "ExtendedAttributeNamedArgList" []) enc_ExtendedAttributeNamedArgList.
Proof.
  refine (ev_S _ _ (ev_and _ _ (src_Identifier_) (ev_and _ _ (src_T Assign) (ev_and _ _ (src_Identifier_) (ev_and _ _ (src_Parenthesized _ _ _ _ (src_Punctuated _ Comma _ _ _ src_Argument eq_refl)) (ev_ge 0))))) _). intros n (K0 & K1 & K2 & K3 & _) i. enter. unfold e_ExtendedAttributeNamedArgList.
  field K0. field K1. field K2. field K3. fin.
Qed.
Lemma src_ExtendedAttributeIdentList : SrcP m e_ExtendedAttributeIdentList (Ty "ExtendedAttributeIdentList" []) enc_ExtendedAttributeIdentList.
Proof.
  refine (ev_S _ _ (ev_and _ _ (src_Identifier_) (ev_and _ _ (src_T Assign) (ev_and _ _ (src_Parenthesized _ _ _ _ (src_Punctuated _ Comma _ _ _ (src_Identifier_) eq_refl)) (ev_ge 0)))) _). intros n (K0 & K1 & K2 & _) i. enter. unfold e_ExtendedAttributeIdentList.
  field K0. field K1. field K2. fin.
Qed.
Lemma src_IdentifierOrString : SrcP m e_IdentifierOrString (Ty "IdentifierOrString" []) enc_IdentifierOrString.
Proof.
  refine (ev_S _ _ (ev_and _ _ (src_Identifier_) (ev_and _ _ (src_StringLit_) (ev_ge 0))) _). intros n (K0 & K1 & _) i. enter. unfold e_IdentifierOrString; cbn [PAlt].
  arm K0. arm K1. finalt.
Qed.
Lemma src_ExtendedAttributeIdent : SrcP m e_ExtendedAttributeIdent (Ty "ExtendedAttributeIdent" []) enc_ExtendedAttributeIdent.
Proof.
  refine (ev_S _ _ (ev_and _ _ (src_Identifier_) (ev_and _ _ (src_T Assign) (ev_and _ _ src_IdentifierOrString (ev_ge 0)))) _). intros n (K0 & K1 & K2 & _) i. enter. unfold e_ExtendedAttributeIdent.
  field K0. field K1. field K2. fin.
Qed.
Lemma src_ExtendedAttributeWildCard : SrcP m e_ExtendedAttributeWildCard (Ty "ExtendedAttributeWildCard" []) enc_ExtendedAttributeWildCard.
Proof.
  refine (ev_S _ _ (ev_and _ _ (src_Identifier_) (ev_and _ _ (src_T Assign) (ev_and _ _ (src_T Asterisk) (ev_ge 0)))) _). intros n (K0 & K1 & K2 & _) i. enter. unfold e_ExtendedAttributeWildCard.
  field K0. field K1. field K2. fin.
Qed.
Lemma src_ExtendedAttributeNoArgs : SrcP m e_ExtendedAttributeNoArgs (Ty "ExtendedAttributeNoArgs" []) enc_ExtendedAttributeNoArgs.
Proof.
  refine (ev_S _ _ (ev_and _ _ (src_Identifier_) (ev_ge 0)) _). intros n (K0 & _) i. enter. unfold e_ExtendedAttributeNoArgs.
  apply ref_ret. eapply ref_field; [eapply ref_parse; [reflexivity|apply K0]|intros r v; eapply ref_ok; reflexivity].
Qed.
Lemma src_ExtendedAttribute : SrcP m e_ExtendedAttribute (Ty "ExtendedAttribute" []) enc_ExtendedAttribute.
Proof.
  refine (ev_S _ _ (ev_and _ _ src_ExtendedAttributeArgList (ev_and _ _ src_ExtendedAttributeNamedArgList (ev_and _ _ src_ExtendedAttributeIdentList (ev_and _ _ src_ExtendedAttributeIdent (ev_and _ _ src_ExtendedAttributeWildCard (ev_and _ _ src_ExtendedAttributeNoArgs (ev_ge 0))))))) _). intros n (K0 & K1 & K2 & K3 & K4 & K5 & _) i. enter. unfold e_ExtendedAttribute; cbn [PAlt].
  arm K0. arm K1. arm K2. arm K3. arm K4. arm K5. finalt.
Qed.
Lemma src_DictionaryMember : SrcP m e_DictionaryMember (Ty "DictionaryMember" []) enc_DictionaryMember.
Proof.
  refine (ev_S _ _ (ev_and _ _ (src_Option _ _ _ _ (src_Bracketed _ _ _ _ (src_Punctuated _ Comma _ _ _ R_ExtendedAttribute eq_refl))) (ev_and _ _ (src_Option _ _ _ _ (src_T Required)) (ev_and _ _ src_Type (ev_and _ _ (src_Identifier_) (ev_and _ _ (src_Option _ _ _ _ src_Default) (ev_and _ _ (src_T SemiColon) (ev_ge 0))))))) _). intros n (K0 & K1 & K2 & K3 & K4 & K5 & _) i. enter. unfold e_DictionaryMember.
  field K0. field K1. field K2. field K3. field K4. field K5. fin.
Qed.
Lemma src_Inheritance : SrcP m e_Inheritance (Ty "Inheritance" []) enc_Inheritance.
Proof.
  refine (ev_S _ _ (ev_and _ _ (src_T Colon) (ev_and _ _ (src_Identifier_) (ev_ge 0))) _). intros n (K0 & K1 & _) i. enter. unfold e_Inheritance.
  field K0. field K1. fin.
Qed.
Lemma src_ConstType : SrcP m e_ConstType (Ty "ConstType" []) enc_ConstType.
Proof.
  refine (ev_S _ _ (ev_and _ _ (src_MayBeNull _ _ _ _ src_IntegerType) (ev_and _ _ (src_MayBeNull _ _ _ _ src_FloatingPointType) (ev_and _ _ (src_MayBeNull _ _ _ _ (src_T Boolean)) (ev_and _ _ (src_MayBeNull _ _ _ _ (src_T Byte)) (ev_and _ _ (src_MayBeNull _ _ _ _ (src_T Octet)) (ev_and _ _ (src_MayBeNull _ _ _ _ (src_Identifier_)) (ev_ge 0))))))) _). intros n (K0 & K1 & K2 & K3 & K4 & K5 & _) i. enter. unfold e_ConstType; cbn [PAlt].
  arm K0. arm K1. arm K2. arm K3. arm K4. arm K5. finalt.
Qed.
Lemma src_ConstMember : SrcP m e_ConstMember (Ty "ConstMember" []) enc_ConstMember.
Proof.
  refine (ev_S _ _ (ev_and _ _ (src_Option _ _ _ _ (src_Bracketed _ _ _ _ (src_Punctuated _ Comma _ _ _ R_ExtendedAttribute eq_refl))) (ev_and _ _ (src_T Const) (ev_and _ _ src_ConstType (ev_and _ _ (src_Identifier_) (ev_and _ _ (src_T Assign) (ev_and _ _ (src_ConstValue_) (ev_and _ _ (src_T SemiColon) (ev_ge 0)))))))) _). intros n (K0 & K1 & K2 & K3 & K4 & K5 & K6 & _) i. enter. unfold e_ConstMember.
  field K0. field K1. field K2. field K3. field K4. field K5. field K6. fin.
Qed.
Lemma src_StringifierOrInheritOrStatic : SrcP m e_StringifierOrInheritOrStatic (Ty "StringifierOrInheritOrStatic" []) enc_StringifierOrInheritOrStatic.
Proof.
  refine (ev_S _ _ (ev_and _ _ (src_T Stringifier) (ev_and _ _ (src_T Inherit) (ev_and _ _ (src_T Static) (ev_ge 0)))) _). intros n (K0 & K1 & K2 & _) i. enter. unfold e_StringifierOrInheritOrStatic; cbn [PAlt].
  arm K0. arm K1. arm K2. finalt.
Qed.
Lemma src_AttributeInterfaceMember : SrcP m e_AttributeInterfaceMember (Ty "AttributeInterfaceMember" []) enc_AttributeInterfaceMember.
Proof.
  refine (ev_S _ _ (ev_and _ _ (src_Option _ _ _ _ (src_Bracketed _ _ _ _ (src_Punctuated _ Comma _ _ _ R_ExtendedAttribute eq_refl))) (ev_and _ _ (src_Option _ _ _ _ src_StringifierOrInheritOrStatic) (ev_and _ _ (src_Option _ _ _ _ (src_T ReadOnly)) (ev_and _ _ (src_T Attribute) (ev_and _ _ src_AttributedType (ev_and _ _ (src_Identifier_) (ev_and _ _ (src_T SemiColon) (ev_ge 0)))))))) _). intros n (K0 & K1 & K2 & K3 & K4 & K5 & K6 & _) i. enter. unfold e_AttributeInterfaceMember.
  field K0. field K1. field K2. field K3. field K4. field K5. field K6. fin.
Qed.
Lemma src_ConstructorInterfaceMember : SrcP m e_ConstructorInterfaceMember (Ty "ConstructorInterfaceMember" []) enc_ConstructorInterfaceMember.
Proof.
  refine (ev_S _ _ (ev_and _ _ (src_Option _ _ _ _ (src_Bracketed _ _ _ _ (src_Punctuated _ Comma _ _ _ R_ExtendedAttribute eq_refl))) (ev_and _ _ (src_T Constructor) (ev_and _ _ (src_Parenthesized _ _ _ _ (src_Punctuated _ Comma _ _ _ src_Argument eq_refl)) (ev_and _ _ (src_T SemiColon) (ev_ge 0))))) _). intros n (K0 & K1 & K2 & K3 & _) i. enter. unfold e_ConstructorInterfaceMember.
  field K0. field K1. field K2. field K3. fin.
Qed.
Lemma src_StringifierOrStatic : SrcP m e_StringifierOrStatic (Ty "StringifierOrStatic" []) enc_StringifierOrStatic.
Proof.
  refine (ev_S _ _ (ev_and _ _ (src_T Stringifier) (ev_and _ _ (src_T Static) (ev_ge 0))) _). intros n (K0 & K1 & _) i. enter. unfold e_StringifierOrStatic; cbn [PAlt].
  arm K0. arm K1. finalt.
Qed.
Lemma src_Special : SrcP m e_Special (Ty "Special" []) enc_Special.
Proof.
  refine (ev_S _ _ (ev_and _ _ (src_T Getter) (ev_and _ _ (src_T Setter) (ev_and _ _ (src_T Deleter) (ev_and _ _ (src_T LegacyCaller) (ev_ge 0))))) _). intros n (K0 & K1 & K2 & K3 & _) i. enter. unfold e_Special; cbn [PAlt].
  arm K0. arm K1. arm K2. arm K3. finalt.
Qed.
Lemma src_ReturnType : SrcP m e_ReturnType (Ty "ReturnType" []) enc_ReturnType.
Proof.
  refine (ev_S _ _ (ev_and _ _ (src_T Undefined) (ev_and _ _ src_Type (ev_ge 0))) _). intros n (K0 & K1 & _) i. enter. unfold e_ReturnType; cbn [PAlt].
  arm K0. arm K1. finalt.
Qed.
Lemma src_OperationInterfaceMember : SrcP m e_OperationInterfaceMember (Ty "OperationInterfaceMember" []) enc_OperationInterfaceMember.
Proof.
  refine (ev_S _ _ (ev_and _ _ (src_Option _ _ _ _ (src_Bracketed _ _ _ _ (src_Punctuated _ Comma _ _ _ R_ExtendedAttribute eq_refl))) (ev_and _ _ (src_Option _ _ _ _ src_StringifierOrStatic) (ev_and _ _ (src_Option _ _ _ _ src_Special) (ev_and _ _ src_ReturnType (ev_and _ _ (src_Option _ _ _ _ (src_Identifier_)) (ev_and _ _ (src_Parenthesized _ _ _ _ (src_Punctuated _ Comma _ _ _ src_Argument eq_refl)) (ev_and _ _ (src_T SemiColon) (ev_ge 0)))))))) _). intros n (K0 & K1 & K2 & K3 & K4 & K5 & K6 & _) i. enter. unfold e_OperationInterfaceMember.
  field K0. field K1. field K2. field K3. field K4. field K5. field K6. fin.
Qed.
Lemma src_SingleTypedIterable : SrcP m e_SingleTypedIterable (Ty "SingleTypedIterable" []) enc_SingleTypedIterable.
Proof.
  refine (ev_S _ _ (ev_and _ _ (src_Option _ _ _ _ (src_Bracketed _ _ _ _ (src_Punctuated _ Comma _ _ _ R_ExtendedAttribute eq_refl))) (ev_and _ _ (src_T Iterable) (ev_and _ _ (src_Generics _ _ _ _ src_AttributedType) (ev_and _ _ (src_T SemiColon) (ev_ge 0))))) _). intros n (K0 & K1 & K2 & K3 & _) i. enter. unfold e_SingleTypedIterable.
  field K0. field K1. field K2. field K3. fin.
Qed.
Lemma src_DoubleTypedIterable : SrcP m e_DoubleTypedIterable (Ty "DoubleTypedIterable" []) enc_DoubleTypedIterable.
Proof.
  refine (ev_S _ _ (ev_and _ _ (src_Option _ _ _ _ (src_Bracketed _ _ _ _ (src_Punctuated _ Comma _ _ _ R_ExtendedAttribute eq_refl))) (ev_and _ _ (src_T Iterable) (ev_and _ _ (src_Generics _ _ _ _ (src_triple _ Comma _ _ _ _ _ _ _ src_AttributedType src_AttributedType)) (ev_and _ _ (src_T SemiColon) (ev_ge 0))))) _). intros n (K0 & K1 & K2 & K3 & _) i. enter. unfold e_DoubleTypedIterable.
  field K0. field K1. field K2. field K3. fin.
Qed.
Lemma src_IterableInterfaceMember : SrcP m e_IterableInterfaceMember (Ty "IterableInterfaceMember" []) enc_IterableInterfaceMember.
Proof.
  refine (ev_S _ _ (ev_and _ _ src_SingleTypedIterable (ev_and _ _ src_DoubleTypedIterable (ev_ge 0))) _). intros n (K0 & K1 & _) i. enter. unfold e_IterableInterfaceMember; cbn [PAlt].
  arm K0. arm K1. finalt.
Qed.
Lemma src_SingleTypedAsyncIterable : SrcP m e_SingleTypedAsyncIterable (Ty "SingleTypedAsyncIterable" []) enc_SingleTypedAsyncIterable.
Proof.
  refine (ev_S _ _ (ev_and _ _ (src_Option _ _ _ _ (src_Bracketed _ _ _ _ (src_Punctuated _ Comma _ _ _ R_ExtendedAttribute eq_refl))) (ev_and _ _ (src_pair Async Iterable) (ev_and _ _ (src_Generics _ _ _ _ src_AttributedType) (ev_and _ _ (src_Option _ _ _ _ (src_Parenthesized _ _ _ _ (src_Punctuated _ Comma _ _ _ src_Argument eq_refl))) (ev_and _ _ (src_T SemiColon) (ev_ge 0)))))) _). intros n (K0 & K1 & K2 & K3 & K4 & _) i. enter. unfold e_SingleTypedAsyncIterable.
  field K0. pairfield K1. field K2. field K3. field K4. fin.
Qed.
Lemma src_DoubleTypedAsyncIterable : SrcP m e_DoubleTypedAsyncIterable (Ty "DoubleTypedAsyncIterable" []) enc_DoubleTypedAsyncIterable.
Proof.
  refine (ev_S _ _ (ev_and _ _ (src_Option _ _ _ _ (src_Bracketed _ _ _ _ (src_Punctuated _ Comma _ _ _ R_ExtendedAttribute eq_refl))) (ev_and _ _ (src_pair Async Iterable) (ev_and _ _ (src_Generics _ _ _ _ (src_triple _ Comma _ _ _ _ _ _ _ src_AttributedType src_AttributedType)) (ev_and _ _ (src_Option _ _ _ _ (src_Parenthesized _ _ _ _ (src_Punctuated _ Comma _ _ _ src_Argument eq_refl))) (ev_and _ _ (src_T SemiColon) (ev_ge 0)))))) _). intros n (K0 & K1 & K2 & K3 & K4 & _) i. enter. unfold e_DoubleTypedAsyncIterable.
  field K0. pairfield K1. field K2. field K3. field K4. fin.
Qed.
Lemma src_AsyncIterableInterfaceMember : SrcP m e_AsyncIterableInterfaceMember (Ty "AsyncIterableInterfaceMember" []) enc_AsyncIterableInterfaceMember.
Proof.
  refine (ev_S _ _ (ev_and _ _ src_SingleTypedAsyncIterable (ev_and _ _ src_DoubleTypedAsyncIterable (ev_ge 0))) _). intros n (K0 & K1 & _) i. enter. unfold e_AsyncIterableInterfaceMember; cbn [PAlt].
  arm K0. arm K1. finalt.
Qed.
Lemma src_MaplikeInterfaceMember : SrcP m e_MaplikeInterfaceMember (Ty "MaplikeInterfaceMember" []) enc_MaplikeInterfaceMember.
Proof.
  refine (ev_S _ _ (ev_and _ _ (src_Option _ _ _ _ (src_Bracketed _ _ _ _ (src_Punctuated _ Comma _ _ _ R_ExtendedAttribute eq_refl))) (ev_and _ _ (src_Option _ _ _ _ (src_T ReadOnly)) (ev_and _ _ (src_T Maplike) (ev_and _ _ (src_Generics _ _ _ _ (src_triple _ Comma _ _ _ _ _ _ _ src_AttributedType src_AttributedType)) (ev_and _ _ (src_T SemiColon) (ev_ge 0)))))) _). intros n (K0 & K1 & K2 & K3 & K4 & _) i. enter. unfold e_MaplikeInterfaceMember.
  field K0. field K1. field K2. field K3. field K4. fin.
Qed.
Lemma src_SetlikeInterfaceMember : SrcP m e_SetlikeInterfaceMember (Ty "SetlikeInterfaceMember" []) enc_SetlikeInterfaceMember.
Proof.
  refine (ev_S _ _ (ev_and _ _ (src_Option _ _ _ _ (src_Bracketed _ _ _ _ (src_Punctuated _ Comma _ _ _ R_ExtendedAttribute eq_refl))) (ev_and _ _ (src_Option _ _ _ _ (src_T ReadOnly)) (ev_and _ _ (src_T Setlike) (ev_and _ _ (src_Generics _ _ _ _ src_AttributedType) (ev_and _ _ (src_T SemiColon) (ev_ge 0)))))) _). intros n (K0 & K1 & K2 & K3 & K4 & _) i. enter. unfold e_SetlikeInterfaceMember.
  field K0. field K1. field K2. field K3. field K4. fin.
Qed.
Lemma src_StringifierMember : SrcP m e_StringifierMember (Ty "StringifierMember" []) enc_StringifierMember.
Proof.
  refine (ev_S _ _ (ev_and _ _ (src_Option _ _ _ _ (src_Bracketed _ _ _ _ (src_Punctuated _ Comma _ _ _ R_ExtendedAttribute eq_refl))) (ev_and _ _ (src_T Stringifier) (ev_and _ _ (src_T SemiColon) (ev_ge 0)))) _). intros n (K0 & K1 & K2 & _) i. enter. unfold e_StringifierMember.
  field K0. field K1. field K2. fin.
Qed.
Lemma src_InterfaceMember : SrcP m e_InterfaceMember (Ty "InterfaceMember" []) enc_InterfaceMember.
Proof.
  refine (ev_S _ _ (ev_and _ _ src_ConstMember (ev_and _ _ src_AttributeInterfaceMember (ev_and _ _ src_ConstructorInterfaceMember (ev_and _ _ src_OperationInterfaceMember (ev_and _ _ src_IterableInterfaceMember (ev_and _ _ src_AsyncIterableInterfaceMember (ev_and _ _ src_MaplikeInterfaceMember (ev_and _ _ src_SetlikeInterfaceMember (ev_and _ _ src_StringifierMember (ev_ge 0)))))))))) _). intros n (K0 & K1 & K2 & K3 & K4 & K5 & K6 & K7 & K8 & _) i. enter. unfold e_InterfaceMember; cbn [PAlt].
  arm K0. arm K1. arm K2. arm K3. arm K4. arm K5. arm K6. arm K7. arm K8. finalt.
Qed.
Lemma src_OperationMixinMember : SrcP m e_OperationMixinMember (Ty "OperationMixinMember" []) enc_OperationMixinMember.
Proof.
  refine (ev_S _ _ (ev_and _ _ (src_Option _ _ _ _ (src_Bracketed _ _ _ _ (src_Punctuated _ Comma _ _ _ R_ExtendedAttribute eq_refl))) (ev_and _ _ (src_Option _ _ _ _ (src_T Stringifier)) (ev_and _ _ src_ReturnType (ev_and _ _ (src_Option _ _ _ _ (src_Identifier_)) (ev_and _ _ (src_Parenthesized _ _ _ _ (src_Punctuated _ Comma _ _ _ src_Argument eq_refl)) (ev_and _ _ (src_T SemiColon) (ev_ge 0))))))) _). intros n (K0 & K1 & K2 & K3 & K4 & K5 & _) i. enter. unfold e_OperationMixinMember.
  field K0. field K1. field K2. field K3. field K4. field K5. fin.
Qed.
Lemma src_AttributeMixinMember : SrcP m e_AttributeMixinMember (Ty "AttributeMixinMember" []) enc_AttributeMixinMember.
Proof.
  refine (ev_S _ _ (ev_and _ _ (src_Option _ _ _ _ (src_Bracketed _ _ _ _ (src_Punctuated _ Comma _ _ _ R_ExtendedAttribute eq_refl))) (ev_and _ _ (src_Option _ _ _ _ (src_T Stringifier)) (ev_and _ _ (src_Option _ _ _ _ (src_T ReadOnly)) (ev_and _ _ (src_T Attribute) (ev_and _ _ src_AttributedType (ev_and _ _ (src_Identifier_) (ev_and _ _ (src_T SemiColon) (ev_ge 0)))))))) _). intros n (K0 & K1 & K2 & K3 & K4 & K5 & K6 & _) i. enter. unfold e_AttributeMixinMember.
  field K0. field K1. field K2. field K3. field K4. field K5. field K6. fin.
Qed.
Lemma src_MixinMember : SrcP m e_MixinMember (Ty "MixinMember" []) enc_MixinMember.
Proof.
  refine (ev_S _ _ (ev_and _ _ src_ConstMember (ev_and _ _ src_OperationMixinMember (ev_and _ _ src_AttributeMixinMember (ev_and _ _ src_StringifierMember (ev_ge 0))))) _). intros n (K0 & K1 & K2 & K3 & _) i. enter. unfold e_MixinMember; cbn [PAlt].
  arm K0. arm K1. arm K2. arm K3. finalt.
Qed.
Lemma src_ConstNamespaceMember : SrcP m e_ConstNamespaceMember (Ty "ConstNamespaceMember" []) enc_ConstNamespaceMember.
Proof.
  refine (ev_S _ _ (ev_and _ _ (src_Option _ _ _ _ (src_Bracketed _ _ _ _ (src_Punctuated _ Comma _ _ _ R_ExtendedAttribute eq_refl))) (ev_and _ _ (src_T Const) (ev_and _ _ src_ConstType (ev_and _ _ (src_Identifier_) (ev_and _ _ (src_T Assign) (ev_and _ _ (src_ConstValue_) (ev_and _ _ (src_T SemiColon) (ev_ge 0)))))))) _). intros n (K0 & K1 & K2 & K3 & K4 & K5 & K6 & _) i. enter. unfold e_ConstNamespaceMember.
  field K0. field K1. field K2. field K3. field K4. field K5. field K6. fin.
Qed.
Lemma src_OperationNamespaceMember : SrcP m e_OperationNamespaceMember (Ty "OperationNamespaceMember" []) enc_OperationNamespaceMember.
Proof.
  refine (ev_S _ _ (ev_and _ _ (src_Option _ _ _ _ (src_Bracketed _ _ _ _ (src_Punctuated _ Comma _ _ _ R_ExtendedAttribute eq_refl))) (ev_and _ _ src_ReturnType (ev_and _ _ (src_Option _ _ _ _ (src_Identifier_)) (ev_and _ _ (src_Parenthesized _ _ _ _ (src_Punctuated _ Comma _ _ _ src_Argument eq_refl)) (ev_and _ _ (src_T SemiColon) (ev_ge 0)))))) _). intros n (K0 & K1 & K2 & K3 & K4 & _) i. enter. unfold e_OperationNamespaceMember.
  field K0. field K1. field K2. field K3. field K4. fin.
Qed.
Lemma src_AttributeNamespaceMember : SrcP m e_AttributeNamespaceMember (Ty "AttributeNamespaceMember" []) enc_AttributeNamespaceMember.
Proof.
  refine (ev_S _ _ (ev_and _ _ (src_Option _ _ _ _ (src_Bracketed _ _ _ _ (src_Punctuated _ Comma _ _ _ R_ExtendedAttribute eq_refl))) (ev_and _ _ (src_T ReadOnly) (ev_and _ _ (src_T Attribute) (ev_and _ _ src_AttributedType (ev_and _ _ (src_Identifier_) (ev_and _ _ (src_T SemiColon) (ev_ge 0))))))) _). intros n (K0 & K1 & K2 & K3 & K4 & K5 & _) i. enter. unfold e_AttributeNamespaceMember.
  field K0. field K1. field K2. field K3. field K4. field K5. fin.
Qed.
Lemma src_NamespaceMember : SrcP m e_NamespaceMember (Ty "NamespaceMember" []) enc_NamespaceMember.
Proof.
  refine (ev_S _ _ (ev_and _ _ src_ConstNamespaceMember (ev_and _ _ src_OperationNamespaceMember (ev_and _ _ src_AttributeNamespaceMember (ev_ge 0)))) _). intros n (K0 & K1 & K2 & _) i. enter. unfold e_NamespaceMember; cbn [PAlt].
  arm K0. arm K1. arm K2. finalt.
Qed.
Lemma src_RecordKeyType : SrcP m e_RecordKeyType (Ty "RecordKeyType" []) enc_RecordKeyType.
Proof.
  refine (ev_S _ _ (ev_and _ _ (src_T ByteString) (ev_and _ _ (src_T DOMString) (ev_and _ _ (src_T USVString) (ev_and _ _ src_NonAnyType (ev_ge 0))))) _). intros n (K0 & K1 & K2 & K3 & _) i. enter. unfold e_RecordKeyType; cbn [PAlt].
  arm K0. arm K1. arm K2. arm K3. finalt.
Qed.
Lemma src_AttributedNonAnyType : SrcP m e_AttributedNonAnyType (Ty "AttributedNonAnyType" []) enc_AttributedNonAnyType.
Proof.
  refine (ev_S _ _ (ev_and _ _ (src_Option _ _ _ _ (src_Bracketed _ _ _ _ (src_Punctuated _ Comma _ _ _ R_ExtendedAttribute eq_refl))) (ev_and _ _ src_NonAnyType (ev_ge 0))) _). intros n (K0 & K1 & _) i. enter. unfold e_AttributedNonAnyType.
  field K0. field K1. fin.
Qed.
Lemma src_UnionMemberType : SrcP m e_UnionMemberType (Ty "UnionMemberType" []) enc_UnionMemberType.
Proof.
  refine (ev_S _ _ (ev_and _ _ src_AttributedNonAnyType (ev_and _ _ (src_MayBeNull _ _ _ _ (src_Parenthesized _ _ _ _ (src_Punctuated _ Or _ _ _ R_UnionMemberType eq_refl))) (ev_ge 0))) _). intros n (K0 & K1 & _) i. enter. unfold e_UnionMemberType; cbn [PAlt].
  arm K0. arm K1. finalt.
Qed.
Lemma src_CallbackDefinition : SrcP m e_CallbackDefinition (Ty "CallbackDefinition" []) enc_CallbackDefinition.
Proof.
  refine (ev_S _ _ (ev_and _ _ (src_Option _ _ _ _ (src_Bracketed _ _ _ _ (src_Punctuated _ Comma _ _ _ R_ExtendedAttribute eq_refl))) (ev_and _ _ (src_T Callback) (ev_and _ _ (src_Identifier_) (ev_and _ _ (src_T Assign) (ev_and _ _ src_ReturnType (ev_and _ _ (src_Parenthesized _ _ _ _ (src_Punctuated _ Comma _ _ _ src_Argument eq_refl)) (ev_and _ _ (src_T SemiColon) (ev_ge 0)))))))) _). intros n (K0 & K1 & K2 & K3 & K4 & K5 & K6 & _) i. enter. unfold e_CallbackDefinition.
  field K0. field K1. field K2. field K3. field K4. field K5. field K6. fin.
Qed.
Lemma src_CallbackInterfaceDefinition : SrcP m e_CallbackInterfaceDefinition (Ty "CallbackInterfaceDefinition" []) enc_CallbackInterfaceDefinition.
Proof.
  refine (ev_S _ _ (ev_and _ _ (src_Option _ _ _ _ (src_Bracketed _ _ _ _ (src_Punctuated _ Comma _ _ _ R_ExtendedAttribute eq_refl))) (ev_and _ _ (src_T Callback) (ev_and _ _ (src_T Interface) (ev_and _ _ (src_Identifier_) (ev_and _ _ (src_Option _ _ _ _ src_Inheritance) (ev_and _ _ (src_Braced _ _ _ _ (src_Vec _ _ _ _ src_InterfaceMember)) (ev_and _ _ (src_T SemiColon) (ev_ge 0)))))))) _). intros n (K0 & K1 & K2 & K3 & K4 & K5 & K6 & _) i. enter. unfold e_CallbackInterfaceDefinition.
  field K0. field K1. field K2. field K3. field K4. field K5. field K6. fin.
Qed.
Lemma src_InterfaceDefinition : SrcP m e_InterfaceDefinition (Ty "InterfaceDefinition" []) enc_InterfaceDefinition.
Proof.
  refine (ev_S _ _ (ev_and _ _ (src_Option _ _ _ _ (src_Bracketed _ _ _ _ (src_Punctuated _ Comma _ _ _ R_ExtendedAttribute eq_refl))) (ev_and _ _ (src_T Interface) (ev_and _ _ (src_Identifier_) (ev_and _ _ (src_Option _ _ _ _ src_Inheritance) (ev_and _ _ (src_Braced _ _ _ _ (src_Vec _ _ _ _ src_InterfaceMember)) (ev_and _ _ (src_T SemiColon) (ev_ge 0))))))) _). intros n (K0 & K1 & K2 & K3 & K4 & K5 & _) i. enter. unfold e_InterfaceDefinition.
  field K0. field K1. field K2. field K3. field K4. field K5. fin.
Qed.
Lemma src_InterfaceMixinDefinition : SrcP m e_InterfaceMixinDefinition (Ty "InterfaceMixinDefinition" []) enc_InterfaceMixinDefinition.
Proof.
  refine (ev_S _ _ (ev_and _ _ (src_Option _ _ _ _ (src_Bracketed _ _ _ _ (src_Punctuated _ Comma _ _ _ R_ExtendedAttribute eq_refl))) (ev_and _ _ (src_T Interface) (ev_and _ _ (src_T Mixin) (ev_and _ _ (src_Identifier_) (ev_and _ _ (src_Braced _ _ _ _ (src_Vec _ _ _ _ src_MixinMember)) (ev_and _ _ (src_T SemiColon) (ev_ge 0))))))) _). intros n (K0 & K1 & K2 & K3 & K4 & K5 & _) i. enter. unfold e_InterfaceMixinDefinition.
  field K0. field K1. field K2. field K3. field K4. field K5. fin.
Qed.
Lemma src_NamespaceDefinition : SrcP m e_NamespaceDefinition (Ty "NamespaceDefinition" []) enc_NamespaceDefinition.
Proof.
  refine (ev_S _ _ (ev_and _ _ (src_Option _ _ _ _ (src_Bracketed _ _ _ _ (src_Punctuated _ Comma _ _ _ R_ExtendedAttribute eq_refl))) (ev_and _ _ (src_T Namespace) (ev_and _ _ (src_Identifier_) (ev_and _ _ (src_Braced _ _ _ _ (src_Vec _ _ _ _ src_NamespaceMember)) (ev_and _ _ (src_T SemiColon) (ev_ge 0)))))) _). intros n (K0 & K1 & K2 & K3 & K4 & _) i. enter. unfold e_NamespaceDefinition.
  field K0. field K1. field K2. field K3. field K4. fin.
Qed.
Lemma src_DictionaryDefinition : SrcP m e_DictionaryDefinition (Ty "DictionaryDefinition" []) enc_DictionaryDefinition.
Proof.
  refine (ev_S _ _ (ev_and _ _ (src_Option _ _ _ _ (src_Bracketed _ _ _ _ (src_Punctuated _ Comma _ _ _ R_ExtendedAttribute eq_refl))) (ev_and _ _ (src_T Dictionary) (ev_and _ _ (src_Identifier_) (ev_and _ _ (src_Option _ _ _ _ src_Inheritance) (ev_and _ _ (src_Braced _ _ _ _ (src_Vec _ _ _ _ src_DictionaryMember)) (ev_and _ _ (src_T SemiColon) (ev_ge 0))))))) _). intros n (K0 & K1 & K2 & K3 & K4 & K5 & _) i. enter. unfold e_DictionaryDefinition.
  field K0. field K1. field K2. field K3. field K4. field K5. fin.
Qed.
Lemma src_PartialInterfaceDefinition : SrcP m e_PartialInterfaceDefinition (Ty "PartialInterfaceDefinition" []) enc_PartialInterfaceDefinition.
Proof.
  refine (ev_S _ _ (ev_and _ _ (src_Option _ _ _ _ (src_Bracketed _ _ _ _ (src_Punctuated _ Comma _ _ _ R_ExtendedAttribute eq_refl))) (ev_and _ _ (src_T Partial) (ev_and _ _ (src_T Interface) (ev_and _ _ (src_Identifier_) (ev_and _ _ (src_Braced _ _ _ _ (src_Vec _ _ _ _ src_InterfaceMember)) (ev_and _ _ (src_T SemiColon) (ev_ge 0))))))) _). intros n (K0 & K1 & K2 & K3 & K4 & K5 & _) i. enter. unfold e_PartialInterfaceDefinition.
  field K0. field K1. field K2. field K3. field K4. field K5. fin.
Qed.
Lemma src_PartialInterfaceMixinDefinition : SrcP m e_PartialInterfaceMixinDefinition (Ty "PartialInterfaceMixinDefinition" []) enc_PartialInterfaceMixinDefinition.
Proof.
  refine (ev_S _ _ (ev_and _ _ (src_Option _ _ _ _ (src_Bracketed _ _ _ _ (src_Punctuated _ Comma _ _ _ R_ExtendedAttribute eq_refl))) (ev_and _ _ (src_T Partial) (ev_and _ _ (src_T Interface) (ev_and _ _ (src_T Mixin) (ev_and _ _ (src_Identifier_) (ev_and _ _ (src_Braced _ _ _ _ (src_Vec _ _ _ _ src_MixinMember)) (ev_and _ _ (src_T SemiColon) (ev_ge 0)))))))) _). intros n (K0 & K1 & K2 & K3 & K4 & K5 & K6 & _) i. enter. unfold e_PartialInterfaceMixinDefinition.
  field K0. field K1. field K2. field K3. field K4. field K5. field K6. fin.
Qed.
Lemma src_PartialDictionaryDefinition : SrcP m e_PartialDictionaryDefinition (Ty "PartialDictionaryDefinition" []) enc_PartialDictionaryDefinition.
Proof.
  refine (ev_S _ _ (ev_and _ _ (src_Option _ _ _ _ (src_Bracketed _ _ _ _ (src_Punctuated _ Comma _ _ _ R_ExtendedAttribute eq_refl))) (ev_and _ _ (src_T Partial) (ev_and _ _ (src_T Dictionary) (ev_and _ _ (src_Identifier_) (ev_and _ _ (src_Braced _ _ _ _ (src_Vec _ _ _ _ src_DictionaryMember)) (ev_and _ _ (src_T SemiColon) (ev_ge 0))))))) _). intros n (K0 & K1 & K2 & K3 & K4 & K5 & _) i. enter. unfold e_PartialDictionaryDefinition.
  field K0. field K1. field K2. field K3. field K4. field K5. fin.
Qed.
Lemma src_PartialNamespaceDefinition : SrcP m e_PartialNamespaceDefinition (Ty "PartialNamespaceDefinition" []) enc_PartialNamespaceDefinition.
Proof.
  refine (ev_S _ _ (ev_and _ _ (src_Option _ _ _ _ (src_Bracketed _ _ _ _ (src_Punctuated _ Comma _ _ _ R_ExtendedAttribute eq_refl))) (ev_and _ _ (src_T Partial) (ev_and _ _ (src_T Namespace) (ev_and _ _ (src_Identifier_) (ev_and _ _ (src_Braced _ _ _ _ (src_Vec _ _ _ _ src_NamespaceMember)) (ev_and _ _ (src_T SemiColon) (ev_ge 0))))))) _). intros n (K0 & K1 & K2 & K3 & K4 & K5 & _) i. enter. unfold e_PartialNamespaceDefinition.
  field K0. field K1. field K2. field K3. field K4. field K5. fin.
Qed.
Lemma src_EnumDefinition : SrcP m e_EnumDefinition (Ty "EnumDefinition" []) enc_EnumDefinition.
Proof.
  refine (ev_S _ _ (ev_and _ _ (src_Option _ _ _ _ (src_Bracketed _ _ _ _ (src_Punctuated _ Comma _ _ _ R_ExtendedAttribute eq_refl))) (ev_and _ _ (src_T Enum) (ev_and _ _ (src_Identifier_) (ev_and _ _ (src_Braced _ _ _ _ (src_PunctuatedNonEmpty _ Comma _ _ _ (src_StringLit_) eq_refl)) (ev_and _ _ (src_T SemiColon) (ev_ge 0)))))) _). intros n (K0 & K1 & K2 & K3 & K4 & _) i. enter. unfold e_EnumDefinition.
  field K0. field K1. field K2. field K3. field K4. fin.
Qed.
Lemma src_TypedefDefinition : SrcP m e_TypedefDefinition (Ty "TypedefDefinition" []) enc_TypedefDefinition.
Proof.
  refine (ev_S _ _ (ev_and _ _ (src_Option _ _ _ _ (src_Bracketed _ _ _ _ (src_Punctuated _ Comma _ _ _ R_ExtendedAttribute eq_refl))) (ev_and _ _ (src_T Typedef) (ev_and _ _ src_AttributedType (ev_and _ _ (src_Identifier_) (ev_and _ _ (src_T SemiColon) (ev_ge 0)))))) _). intros n (K0 & K1 & K2 & K3 & K4 & _) i. enter. unfold e_TypedefDefinition.
  field K0. field K1. field K2. field K3. field K4. fin.
Qed.
Lemma src_IncludesStatementDefinition : SrcP m e_IncludesStatementDefinition (Ty "IncludesStatementDefinition" []) enc_IncludesStatementDefinition.
Proof.
  refine (ev_S _ _ (ev_and _ _ (src_Option _ _ _ _ (src_Bracketed _ _ _ _ (src_Punctuated _ Comma _ _ _ R_ExtendedAttribute eq_refl))) (ev_and _ _ (src_Identifier_) (ev_and _ _ (src_T Includes) (ev_and _ _ (src_Identifier_) (ev_and _ _ (src_T SemiColon) (ev_ge 0)))))) _). intros n (K0 & K1 & K2 & K3 & K4 & _) i. enter. unfold e_IncludesStatementDefinition.
  field K0. field K1. field K2. field K3. field K4. fin.
Qed.
Lemma src_ImplementsDefinition : SrcP m e_ImplementsDefinition (Ty "ImplementsDefinition" []) enc_ImplementsDefinition.
Proof.
  refine (ev_S _ _ (ev_and _ _ (src_Option _ _ _ _ (src_Bracketed _ _ _ _ (src_Punctuated _ Comma _ _ _ R_ExtendedAttribute eq_refl))) (ev_and _ _ (src_Identifier_) (ev_and _ _ (src_T Implements) (ev_and _ _ (src_Identifier_) (ev_and _ _ (src_T SemiColon) (ev_ge 0)))))) _). intros n (K0 & K1 & K2 & K3 & K4 & _) i. enter. unfold e_ImplementsDefinition.
  field K0. field K1. field K2. field K3. field K4. fin.
Qed.
Lemma src_Definition : SrcP m e_Definition (Ty "Definition" []) enc_Definition.
Proof.
  refine (ev_S _ _ (ev_and _ _ src_CallbackDefinition (ev_and _ _ src_CallbackInterfaceDefinition (ev_and _ _ src_InterfaceDefinition (ev_and _ _ src_InterfaceMixinDefinition (ev_and _ _ src_NamespaceDefinition (ev_and _ _ src_DictionaryDefinition (ev_and _ _ src_PartialInterfaceDefinition (ev_and _ _ src_PartialInterfaceMixinDefinition (ev_and _ _ src_PartialDictionaryDefinition (ev_and _ _ src_PartialNamespaceDefinition (ev_and _ _ src_EnumDefinition (ev_and _ _ src_TypedefDefinition (ev_and _ _ src_IncludesStatementDefinition (ev_and _ _ src_ImplementsDefinition (ev_ge 0))))))))))))))) _). intros n (K0 & K1 & K2 & K3 & K4 & K5 & K6 & K7 & K8 & K9 & K10 & K11 & K12 & K13 & _) i. enter. unfold e_Definition; cbn [PAlt].
  arm K0. arm K1. arm K2. arm K3. arm K4. arm K5. arm K6. arm K7. arm K8. arm K9. arm K10. arm K11. arm K12. arm K13. finalt.
Qed.
End Types.

(** ** The recursion *)
Record Rec (m : nat) : Prop := mkRec {
  rec_Type : SrcP m (PNT NT_Type) (Ty "Type" []) enc_Type;
  rec_ReturnType : SrcP m (PNT NT_ReturnType) (Ty "ReturnType" []) enc_ReturnType;
  rec_RecordKeyType : SrcP m (PNT NT_RecordKeyType) (Ty "RecordKeyType" []) enc_RecordKeyType;
  rec_UnionMemberType : SrcP m (PNT NT_UnionMemberType) (Ty "UnionMemberType" []) enc_UnionMemberType;
  rec_ExtendedAttribute : SrcP m (PNT NT_ExtendedAttribute) (Ty "ExtendedAttribute" []) enc_ExtendedAttribute }.
Lemma rec_all m : Rec m.
Proof.
  induction m as [|m [A B C D E]].
  - split; exists 0; intros n _ i; rewrite run_nt_O; exact Logic.I.
  - split; unfold SrcP; rewrite run_nt_S; cbn [grammar].
    + apply (src_Type m); assumption.
    + apply (src_ReturnType m); assumption.
    + apply (src_RecordKeyType m); assumption.
    + apply (src_UnionMemberType m); assumption.
    + apply (src_ExtendedAttribute m); assumption.
Qed.
