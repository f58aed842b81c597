(** * Completeness on tokens: whatever is written as the concrete syntax of a tree is parsed to that tree. *)
From Coq Require Import String Ascii NArith Arith Bool List Lia.
From Verif Require Import Nom Lex Ast Grammar Spec LexFacts NumFacts TokFacts RunFacts Shapes TermFacts Api ApiFacts LexProps Tok TokRun TokSound.
Import ListNotations.
Open Scope list_scope.

(** ** Tools *)

Lemma Ev_reject n A (p : pexp A) i : match krun n A p i with Err (Error _ _) => true | _ => false end = true -> Ev p i None.
Proof. intros H. apply Ev_None. exists n. destruct (krun n A p i) as [|[]|]; try discriminate. eauto. Qed.
Lemma Ev_accept n A (p : pexp A) i r a : krun n A p i = Ok r a -> Ev p i (Some (a, r)).
Proof. intros H. apply Ev_Some. eauto. Qed.
(** Rejection visible from the first tokens. *)
Ltac erej := apply (Ev_reject 2); exact (eq_refl true).

Lemma Ev_T t r : Ev (T_ t) (term_tok t :: r) (Some (tt, r)).
Proof. apply (Ev_accept 0). apply kr_term_iff. auto. Qed.
Lemma Ev_T_no t i : (forall r, i <> term_tok t :: r) -> Ev (T_ t) i None.
Proof.
  intros H. apply (Ev_reject 0). unfold T_. rewrite run_term. cbn [tok_sem]. destruct i as [|x i]; auto.
  destruct (tok_eqb x (term_tok t)) eqn:E; auto. apply tok_eqb_eq in E. subst. destruct (H i). auto.
Qed.
Lemma Ev_ident e n r : Ev e_Identifier (TName e n :: r) (Some (n, r)).
Proof. apply (Ev_accept 0). reflexivity. Qed.
Lemma Ev_str s r : Ev (PTerm TmStringLit) (TStr s :: r) (Some (s, r)).
Proof. apply (Ev_accept 0). reflexivity. Qed.
Lemma Ev_opt_Some A (p : pexp A) i a r : Ev p i (Some (a, r)) -> Ev (e_Option p) i (Some (Some a, r)).
Proof. intros H. apply (Ev_opt _ _ _ (Some (a, r))). auto. Qed.
Lemma Ev_opt_None A (p : pexp A) i : Ev p i None -> Ev (e_Option p) i (Some (None, i)).
Proof. intros H. apply (Ev_opt _ _ _ None). auto. Qed.
Lemma Ev_map A B (f : A -> B) (p : pexp A) i a r : Ev p i (Some (a, r)) -> Ev (PMap f p) i (Some (f a, r)).
Proof. intros H. eapply Ev_bind; eauto. apply Ev_ret. Qed.
Lemma Ev_map_no A B (f : A -> B) (p : pexp A) i : Ev p i None -> Ev (PMap f p) i None.
Proof. apply Ev_bind_no. Qed.
Lemma Ev_null_Some (T : Set) (p : pexp T) i t u r : Ev p i (Some (t, TPunct "?" :: r)) -> Ev (e_MayBeNull p) i (Some (mkMayBeNull t (Some u), r)).
Proof.
  intros H. eapply Ev_bind; eauto. eapply Ev_bind; [apply Ev_opt_Some; apply (Ev_T QMark)|]. destruct u. apply Ev_ret.
Qed.
Lemma Ev_null_None (T : Set) (p : pexp T) i t r : Ev p i (Some (t, r)) -> (forall r', r <> TPunct "?" :: r') ->
  Ev (e_MayBeNull p) i (Some (mkMayBeNull t None, r)).
Proof.
  intros H Hr. eapply Ev_bind; eauto. eapply Ev_bind; [apply Ev_opt_None; apply Ev_T_no; auto|]. apply Ev_ret.
Qed.
Lemma Ev_null_no (T : Set) (p : pexp T) i : Ev p i None -> Ev (e_MayBeNull p) i None.
Proof. apply Ev_bind_no. Qed.
Lemma Ev_len A (p : pexp A) al i a r : Shape al p true -> Ev p i (Some (a, r)) -> length r < length i.
Proof. intros HS H. apply Ev_Some in H as [n H]. apply (krun_Le n A p al true HS) in H. lia. Qed.

(** Concrete syntax, from left to right. *)
Lemma Conc_nil_inv i r : Conc [] i r -> i = r.
Proof. intros H. inversion H; auto. Qed.
Lemma Conc_kw_inv s g i r : Conc (GKw s :: g) i r -> exists j, i = kw s :: j /\ Conc g j r.
Proof. intros H. inversion H; subst. eauto. Qed.
Lemma Conc_p_inv s g i r : Conc (GP s :: g) i r -> exists j, i = TPunct s :: j /\ Conc g j r.
Proof. intros H. inversion H; subst. eauto. Qed.
Lemma Conc_id_inv bad n g i r : Conc (GId bad n :: g) i r ->
  exists e j, i = TName e n :: j /\ (e = false -> ~ In n (map str bad)) /\ Conc g j r.
Proof. intros H. inversion H; subst; do 2 eexists; repeat split; eauto. discriminate. Qed.
Lemma Conc_ty_inv bad n g i r : Conc (GTy bad n :: g) i r ->
  exists e j, i = TName e n :: j /\ (e = false -> ~ In n (map str bad) /\ ~ fuses n j) /\ Conc g j r.
Proof. intros H. inversion H; subst; do 2 eexists; repeat split; eauto; discriminate. Qed.
Lemma Conc_after_inv b n g i r : Conc (name_after b n :: g) i r ->
  exists e j, i = TName e n :: j /\ long_ok b (TName e n :: j) /\ Conc g j r.
Proof.
  intros H. apply Conc_id_inv in H as (e & j & -> & H1 & H2). exists e, j. repeat split; auto. intros -> r' [= -> -> ->].
  apply H1; auto. left. reflexivity.
Qed.
Lemma Conc_str_inv s g i r : Conc (GStr s :: g) i r -> exists j, i = TStr s :: j /\ Conc g j r.
Proof. intros H. inversion H; subst. eauto. Qed.
Lemma Conc_q_inv q i r : Conc (opt_q q) i r -> match q with Some _ => i = TPunct "?" :: r | None => i = r end.
Proof.
  destruct q; cbn; intros H; [apply Conc_p_inv in H as (j & -> & H)|]; apply Conc_nil_inv in H; subst; auto.
Qed.
Lemma Conc_optkw_inv o s i r : Conc (opt_kw o s) i r -> match o with Some _ => i = kw s :: r | None => i = r end.
Proof.
  destruct o; cbn; intros H; [apply Conc_kw_inv in H as (j & -> & H)|]; apply Conc_nil_inv in H; subst; auto.
Qed.

Ltac cinv1 H :=
  lazymatch type of H with
  | Conc [] _ _ => apply Conc_nil_inv in H; subst
  | Conc (GKw _ :: _) _ _ => let j := fresh "j" in let E := fresh in apply Conc_kw_inv in H as (j & E & H); subst
  | Conc (GP _ :: _) _ _ => let j := fresh "j" in let E := fresh in apply Conc_p_inv in H as (j & E & H); subst
  | Conc (GStr _ :: _) _ _ => let j := fresh "j" in let E := fresh in apply Conc_str_inv in H as (j & E & H); subst
  | Conc (GId [] _ :: _) _ _ => let j := fresh "j" in let e := fresh "e" in let E := fresh in
      apply Conc_id_inv in H as (e & j & E & _ & H); subst
  | Conc (GId _ _ :: _) _ _ => let j := fresh "j" in let e := fresh "e" in let E := fresh in let K := fresh "K" in
      apply Conc_id_inv in H as (e & j & E & K & H); subst
  | Conc (GTy _ _ :: _) _ _ => let j := fresh "j" in let e := fresh "e" in let E := fresh in let K := fresh "K" in
      apply Conc_ty_inv in H as (e & j & E & K & H); subst
  | Conc (name_after _ _ :: _) _ _ => let j := fresh "j" in let e := fresh "e" in let E := fresh in let K := fresh "K" in
      apply Conc_after_inv in H as (e & j & E & K & H); subst
  | Conc (_ ++ _) _ _ => let j := fresh "j" in let K := fresh "K" in apply Conc_split in H as (j & K & H); cinv1 K
  | _ => idtac
  end.
Ltac cinv H := norm_in H; repeat (progress cinv1 H)
with norm_in H := repeat (rewrite <- ?app_assoc in H; cbn [app] in H).

Lemma Conc_len g i r : Conc g i r -> length r <= length i.
Proof. intros H. apply Conc_suffix in H as [x ->]. rewrite app_length. lia. Qed.

(** What may follow a type. *)
Definition tfol (r : list tok) : Prop := (forall r', r <> TPunct "?" :: r') /\ (forall r', r <> TPunct "<" :: r').
Lemma tfol_name e n r : tfol (TName e n :: r). Proof. split; discriminate. Qed.
Lemma tfol_p s r : s <> "?"%string -> s <> "<"%string -> tfol (TPunct s :: r).
Proof. intros H1 H2. split; intros r' [= E _]; auto. Qed.

(** ** Types without recursion *)
Lemma Ev_null (T : Set) (p : pexp T) i m j r : Ev p i (Some (type_ m, j)) -> Conc (opt_q (q_mark m)) j r ->
  tfol r -> Ev (e_MayBeNull p) i (Some (m, r)).
Proof.
  intros H Hq [Hr _]. apply Conc_q_inv in Hq. destruct m as [t [u|]]; cbn in *; subst.
  - apply Ev_null_Some; auto.
  - apply Ev_null_None; auto.
Qed.

Lemma C_IntegerType i r t : Conc (show_IntegerType t) i r ->
  long_ok (match t with IntegerType_Long _ => true | _ => false end) r -> Ev e_IntegerType i (Some (t, r)).
Proof.
  intros H Hl. destruct t as [[[[]|]]|[[[]|]]|[[[]|]]]; cbn in H; cinv H.
  1,2,5,6: apply (Ev_accept 3); reflexivity.
  - apply Ev_or2; [|apply Ev_or1; apply (Ev_accept 3); reflexivity].
    apply Ev_map_no. eapply Ev_bind; [apply Ev_opt_Some; apply (Ev_T Unsigned)|]. eapply Ev_bind; [apply (Ev_T Long)|].
    apply Ev_bind_no. apply Ev_T_no. intros r'. apply (Hl eq_refl r').
  - apply Ev_or2; [|apply Ev_or1; apply (Ev_accept 3); reflexivity].
    apply Ev_map_no. eapply Ev_bind; [apply Ev_opt_None; erej|]. eapply Ev_bind; [apply (Ev_T Long)|].
    apply Ev_bind_no. apply Ev_T_no. intros r'. apply (Hl eq_refl r').
Qed.
Lemma C_FloatingPointType i r t : Conc (show_FloatingPointType t) i r -> Ev e_FloatingPointType i (Some (t, r)).
Proof.
  intros H. destruct t as [[[[]|]]|[[[]|]]]; cbn in H; cinv H; apply (Ev_accept 3); reflexivity.
Qed.
Lemma kw_ne s n r r' : n <> str s -> TName false n :: r <> kw s :: r'.
Proof. intros H [= E _]. auto. Qed.
Lemma C_Integer_no e n i : (e = false -> n <> str "long" /\ n <> str "short" /\ ~ fuses n i) -> Ev e_IntegerType (TName e n :: i) None.
Proof.
  intros H. destruct e; [erej|]. destruct (H eq_refl) as (H1 & H2 & H3). clear H.
  destruct (text_eqb n (str "unsigned")) eqn:E; [apply text_eqb_spec in E; subst|apply text_eqb_false in E].
  - assert (K : forall s r, s = "long"%string \/ s = "short"%string -> i <> kw s :: r).
    { intros s r Hs ->. apply H3. left. split; auto. exists r. destruct Hs as [-> | ->]; auto. }
    apply Ev_or2; [|apply Ev_or2; [|apply Ev_or2; [|apply Ev_end]]]; apply Ev_map_no;
      (eapply Ev_bind; [apply Ev_opt_Some; apply (Ev_T Unsigned)|]; apply Ev_bind_no; apply Ev_T_no; intros; apply K; auto).
  - apply Ev_or2; [|apply Ev_or2; [|apply Ev_or2; [|apply Ev_end]]]; apply Ev_map_no;
      (eapply Ev_bind; [apply Ev_opt_None; apply Ev_T_no; intros; apply kw_ne; auto|]; apply Ev_bind_no; apply Ev_T_no; intros; apply kw_ne; auto).
Qed.
Lemma C_Float_no e n i : (e = false -> n <> str "float" /\ n <> str "double" /\ ~ fuses n i) -> Ev e_FloatingPointType (TName e n :: i) None.
Proof.
  intros H. destruct e; [erej|]. destruct (H eq_refl) as (H1 & H2 & H3). clear H.
  destruct (text_eqb n (str "unrestricted")) eqn:E; [apply text_eqb_spec in E; subst|apply text_eqb_false in E].
  - assert (K : forall s r, s = "float"%string \/ s = "double"%string -> i <> kw s :: r).
    { intros s r Hs ->. apply H3. right. split; auto. exists r. destruct Hs as [-> | ->]; auto. }
    apply Ev_or2; [|apply Ev_or2; [|apply Ev_end]]; apply Ev_map_no;
      (eapply Ev_bind; [apply Ev_opt_Some; apply (Ev_T Unrestricted)|]; apply Ev_bind_no; apply Ev_T_no; intros; apply K; auto).
  - apply Ev_or2; [|apply Ev_or2; [|apply Ev_end]]; apply Ev_map_no;
      (eapply Ev_bind; [apply Ev_opt_None; apply Ev_T_no; intros; apply kw_ne; auto|]; apply Ev_bind_no; apply Ev_T_no; intros; apply kw_ne; auto).
Qed.

(** Chooses the right alternative by looking at the first tokens. *)
Ltac epick := repeat (apply Ev_or2; [erej|]); apply Ev_or1; apply Ev_map.
Ltac ekw := match goal with H : Conc (show_kw_null _ ?m) _ _ |- Ev (e_MayBeNull (T_ ?t)) _ _ =>
  eapply Ev_null; [apply (Ev_T t)| |]; eauto end.

Lemma Conc_kw_null_inv s m i r : Conc (show_kw_null s m) i r -> exists j, i = kw s :: j /\ Conc (opt_q (q_mark m)) j r.
Proof. destruct m as [t q]. cbn. apply Conc_kw_inv. Qed.
Lemma Ev_kw_null t m j r : Conc (opt_q (q_mark m)) j r -> tfol r -> Ev (e_MayBeNull (T_ t)) (term_tok t :: j) (Some (m, r)).
Proof. intros H Hr. eapply Ev_null; eauto. destruct m as [[] q]. apply Ev_T. Qed.
Lemma Ev_kw_no e s n t i : term_tok t = kw s -> (e = false -> n <> str s) -> Ev (e_MayBeNull (T_ t)) (TName e n :: i) None.
Proof. intros E H. apply Ev_null_no. apply Ev_T_no. intros r. rewrite E. intros [= -> -> ->]. apply H; auto. Qed.

(** A raw identifier is not a word of the list. *)
Ltac inl := cbn [In type_words const_words app]; repeat first [left; reflexivity | right].
Ltac nokw2 K := eapply Ev_kw_no; [reflexivity|let Hx := fresh in intros Hx E; apply (proj1 (K Hx)); rewrite E; apply in_map; inl].

Ltac nonum K := apply Ev_null_no; first [apply C_Integer_no|apply C_Float_no];
  let Hx := fresh in let K1 := fresh in let K2 := fresh in
  intros Hx; destruct (K Hx) as [K1 K2]; repeat split; auto; intros E; apply K1; rewrite E; apply in_map; inl.

Lemma C_ConstType i r t : Conc (show_ConstType t) i r -> tfol r -> long_ok (const_ends_long t) r -> Ev e_ConstType i (Some (t, r)).
Proof.
  intros H Hr Hl. destruct t as [m|m|m|m|m|m]; cbn [show_ConstType const_ends_long] in *.
  - destruct m as [t q]. cbn [show_null] in H. apply Conc_split in H as (j & H & Hq).
    apply Ev_or1. apply Ev_map. eapply Ev_null; eauto. cbn. apply C_IntegerType; auto.
    intros E r' ->. destruct t; try discriminate. apply Conc_q_inv in Hq. destruct q as [u|]; [discriminate|]. subst.
    apply (Hl eq_refl r'). reflexivity.
  - destruct m as [t q]. cbn [show_null] in H. apply Conc_split in H as (j & H & Hq).
    pose proof (C_FloatingPointType _ _ _ H) as H'.
    destruct t as [[[[]|]]|[[[]|]]]; cbn in H; cinv H; epick; eapply Ev_null; eauto.
  - apply Conc_kw_null_inv in H as (j & -> & H). epick. apply (Ev_kw_null Boolean); auto.
  - apply Conc_kw_null_inv in H as (j & -> & H). epick. apply (Ev_kw_null Byte); auto.
  - apply Conc_kw_null_inv in H as (j & -> & H). epick. apply (Ev_kw_null Octet); auto.
  - destruct m as [x q]. cbn [show_null app] in H. cinv H.
    repeat (apply Ev_or2; [apply Ev_map_no; solve [nonum K | nokw2 K]|]).
    apply Ev_or1. apply Ev_map. eapply Ev_null; eauto. apply Ev_ident.
Qed.

Lemma C_tail A (q : pexp A) t sep (f : A -> list gtok) (w : A -> Prop) al N r :
  (forall g i r, Conc (sep :: g) i r -> exists j, i = term_tok t :: j /\ Conc g j r) ->
  Shape al q true ->
  (forall a i r', length i <= N -> Conc (f a) i r' -> w a -> (exists k, r' = term_tok t :: k) \/ r' = r -> Ev q i (Some (a, r'))) ->
  (forall k, r <> term_tok t :: k) ->
  forall l i, length i <= N -> Conc (flat_map (fun a => sep :: f a) l) i r -> All w l -> SepTail (T_ t) q i l r.
Proof.
  intros Hs HS Hq Hr. induction l as [|a l IH]; intros i HN H Hw.
  - apply Conc_nil_inv in H. subst. apply ST_stop. apply Ev_T_no. auto.
  - cbn [flat_map] in H. change ((sep :: f a) ++ flat_map (fun a => sep :: f a) l) with (sep :: f a ++ flat_map (fun a => sep :: f a) l) in H.
    apply Hs in H as (j & -> & H). apply Conc_split in H as (k & H1 & H2). destruct Hw as [Hw1 Hw2]. cbn [length] in HN.
    assert (Hk : Ev q j (Some (a, k))).
    { apply Hq; auto; [lia|]. destruct l as [|b l].
      - apply Conc_nil_inv in H2. auto.
      - left. cbn [flat_map app] in H2. apply Hs in H2 as (k' & -> & _). eauto. }
    pose proof (Ev_len _ _ _ _ _ _ HS Hk) as Hlen.
    eapply ST_more; [apply Ev_T|cbn; lia|exact Hk|cbn; lia|]. apply IH; auto. lia.
Qed.
Lemma C_sep A (q : pexp A) t sep (f : A -> list gtok) (w : A -> Prop) al N i r l :
  (forall g i r, Conc (sep :: g) i r -> exists j, i = term_tok t :: j /\ Conc g j r) ->
  Shape al q true ->
  (forall a i r', length i <= N -> Conc (f a) i r' -> w a -> (exists k, r' = term_tok t :: k) \/ r' = r -> Ev q i (Some (a, r'))) ->
  (forall k, r <> term_tok t :: k) -> Ev q r None ->
  length i <= N -> Conc (join sep (map f l)) i r -> All w l -> Ev (e_Punctuated q t) i (Some (l, r)).
Proof.
  intros Hs HS Hq Hr Hn HN H Hw. unfold e_Punctuated. destruct l as [|a l].
  - apply Conc_nil_inv in H. subst. eapply Ev_bind; [apply Ev_sep_nil; auto|]. apply Ev_ret.
  - rewrite join_cons in H. apply Conc_split in H as (k & H1 & H2). destruct Hw as [Hw1 Hw2].
    assert (Hk : Ev q i (Some (a, k))).
    { apply Hq; auto. destruct l as [|b l].
      - apply Conc_nil_inv in H2. auto.
      - left. cbn [flat_map app] in H2. apply Hs in H2 as (k' & -> & _). eauto. }
    pose proof (Ev_len _ _ _ _ _ _ HS Hk) as Hlen.
    eapply Ev_bind; [|apply Ev_ret]. eapply Ev_sep_cons; eauto. eapply C_tail; eauto. lia.
Qed.

(** ** First tokens of types *)
Definition nonany_heads : list string :=
  ["Promise"; "sequence"; "FrozenArray"; "record"; "unsigned"; "unrestricted"]%string ++ type_words.
Definition head_ok (heads bad : list string) (i : list tok) : Prop :=
  forall n i', i = TName false n :: i' -> In n (map str heads) \/ ~ In n (map str bad).
Lemma nonany_head bad t i r : Conc (show_NonAnyType bad t) i r ->
  (exists e n i', i = TName e n :: i') /\ head_ok nonany_heads bad i.
Proof.
  assert (G : forall s g, In s nonany_heads -> Conc (GKw s :: g) i r -> (exists e n i', i = TName e n :: i') /\ head_ok nonany_heads bad i).
  { intros s g Hs H. apply Conc_kw_inv in H as (j & -> & H). split; [unfold kw; eauto|]. intros n i' [= <- <-]. left. apply in_map; auto. }
  intros H.
  destruct t as [[p]|m|m|m|m|m|m|m|m|m|m|m|m|m|m|m|m|m|m|m|m|m|m|m|m|m|m|m|m]; cbn [show_NonAnyType] in H;
    try (destruct m as [x q]; eapply G; [|exact H]; unfold nonany_heads; inl).
  - eapply G; [|exact H]; unfold nonany_heads; inl.
  - destruct m as [[[[[]|]]|[[[]|]]|[[[]|]]] q]; (eapply G; [|exact H]; unfold nonany_heads; inl).
  - destruct m as [[[[[]|]]|[[[]|]]] q]; (eapply G; [|exact H]; unfold nonany_heads; inl).
  - destruct m as [[x] q]; (eapply G; [|exact H]; unfold nonany_heads; inl).
  - destruct m as [[x] q]; (eapply G; [|exact H]; unfold nonany_heads; inl).
  - destruct m as [[x v] q]; (eapply G; [|exact H]; unfold nonany_heads; inl).
  - destruct m as [x q]. cbn [show_null app] in H. cinv H. split; eauto. intros n i' [= -> -> ->]. right.
    destruct (K eq_refl) as [K1 _]. intros Hn. apply K1. rewrite map_app. apply in_or_app. auto.
Qed.
Lemma head_ok_weak h1 h2 bad1 bad2 i : head_ok h1 bad1 i -> incl h1 h2 -> incl bad2 bad1 -> head_ok h2 bad2 i.
Proof.
  intros H H1 H2 n i' E. destruct (H n i' E) as [K|K].
  - left. apply in_map_iff in K as (s & <- & K). apply in_map; auto.
  - right. intros K'. apply K. apply in_map_iff in K' as (s & <- & K'). apply in_map; auto.
Qed.
Lemma type_head bad t i r : Conc (show_Type bad t) i r ->
  ((exists e n i', i = TName e n :: i') \/ exists i', i = TPunct "(" :: i') /\ head_ok ("any"%string :: nonany_heads) bad i.
Proof.
  intros H. destruct t as [[|x]|[l q]]; cbn [show_Type show_SingleType] in H.
  - cinv H. split; [left; unfold kw; eauto|]. intros n i' [= <- <-]. left. left. reflexivity.
  - apply nonany_head in H as [H1 H2]. split; auto. eapply head_ok_weak; eauto; apply incl_tl, incl_refl.
  - cinv1 H. split; eauto. intros n i' [=].
Qed.
Lemma return_head bad t i r : Conc (show_ReturnType bad t) i r ->
  ((exists e n i', i = TName e n :: i') \/ exists i', i = TPunct "(" :: i') /\ head_ok ("undefined" :: "any" :: nonany_heads)%string bad i.
Proof.
  intros H. destruct t as [|x]; cbn [show_ReturnType] in H.
  - cinv H. split; [left; unfold kw; eauto|]. intros n i' [= <- <-]. left. left. reflexivity.
  - apply type_head in H as [H1 H2]. split; auto. eapply head_ok_weak; eauto; apply incl_tl, incl_refl.
Qed.
Lemma head_not heads bad i w : head_ok heads bad i -> In w bad -> existsb (text_eqb (str w)) (map str heads) = false ->
  forall i', i <> kw w :: i'.
Proof.
  intros H Hw E i' ->. destruct (H _ _ eq_refl) as [K|K].
  - enough (existsb (text_eqb (str w)) (map str heads) = true) by congruence. apply existsb_exists. eexists. split; [exact K|]. apply text_eqb_refl.
  - apply K. apply in_map. auto.
Qed.

(** A type that starts with some other raw name is that name. *)
Lemma raw_nonany bad t w j r : Conc (show_NonAnyType bad t) (TName false w :: j) r -> ~ In w (map str nonany_heads) ->
  exists q, t = NonAnyType_Identifier (mkMayBeNull w q) /\ Conc (opt_q q) j r.
Proof.
  assert (G : forall s g, In s nonany_heads -> Conc (GKw s :: g) (TName false w :: j) r -> ~ In w (map str nonany_heads) -> False).
  { intros s g Hs H Hw. apply Conc_kw_inv in H as (j' & [= -> ->] & H). apply Hw. apply in_map; auto. }
  intros H Hw.
  destruct t as [[p]|m|m|m|m|m|m|m|m|m|m|m|m|m|m|m|m|m|m|m|m|m|m|m|m|m|m|m|m]; cbn [show_NonAnyType] in H;
    try (exfalso; destruct m as [x q]; eapply G; [|exact H|exact Hw]; unfold nonany_heads; inl).
  - exfalso. eapply G; [|exact H|exact Hw]; unfold nonany_heads; inl.
  - exfalso. destruct m as [[[[[]|]]|[[[]|]]|[[[]|]]] q]; (eapply G; [|exact H|exact Hw]; unfold nonany_heads; inl).
  - exfalso. destruct m as [[[[[]|]]|[[[]|]]] q]; (eapply G; [|exact H|exact Hw]; unfold nonany_heads; inl).
  - exfalso. destruct m as [[x] q]; (eapply G; [|exact H|exact Hw]; unfold nonany_heads; inl).
  - exfalso. destruct m as [[x] q]; (eapply G; [|exact H|exact Hw]; unfold nonany_heads; inl).
  - exfalso. destruct m as [[x v] q]; (eapply G; [|exact H|exact Hw]; unfold nonany_heads; inl).
  - destruct m as [x q]. cbn [show_null app] in H. apply Conc_ty_inv in H as (e & j' & [= <- -> ->] & _ & H). eauto.
Qed.
Lemma not_in_words w l : existsb (text_eqb w) (map str l) = false -> ~ In w (map str l).
Proof.
  intros E K. enough (existsb (text_eqb w) (map str l) = true) by congruence. apply existsb_exists. eexists. split; [exact K|].
  apply text_eqb_refl.
Qed.
Lemma raw_type bad t w j r : Conc (show_Type bad t) (TName false w :: j) r ->
  existsb (text_eqb w) (map str ("any"%string :: nonany_heads)) = false ->
  exists q, t = Type_Single (SingleType_NonAny (NonAnyType_Identifier (mkMayBeNull w q))) /\ Conc (opt_q q) j r.
Proof.
  intros H Hw. apply not_in_words in Hw. destruct t as [[|x]|[l q]]; cbn [show_Type show_SingleType] in H.
  - exfalso. apply Conc_kw_inv in H as (j' & [= -> ->] & _). apply Hw. left. reflexivity.
  - apply raw_nonany in H as (q & -> & H); eauto. intros K. apply Hw. right. exact K.
  - exfalso. apply Conc_p_inv in H as (j' & [=] & _).
Qed.
Lemma raw_return bad t w j r : Conc (show_ReturnType bad t) (TName false w :: j) r ->
  existsb (text_eqb w) (map str ("undefined" :: "any" :: nonany_heads)%string) = false ->
  exists q, t = ReturnType_Type (Type_Single (SingleType_NonAny (NonAnyType_Identifier (mkMayBeNull w q)))) /\ Conc (opt_q q) j r.
Proof.
  intros H Hw. destruct t as [|x]; cbn [show_ReturnType] in H.
  - exfalso. apply not_in_words in Hw. apply Conc_kw_inv in H as (j' & [= -> ->] & _). apply Hw. left. reflexivity.
  - cbn [map existsb] in Hw. apply orb_false_iff in Hw as [_ Hw]. apply raw_type in H as (q & -> & H); eauto.
Qed.

(** ** The recursive types, given completeness on shorter inputs *)
Definition Cpl_Type N (p : pexp Type_) : Prop := forall bad i r t, length i <= N -> Conc (show_Type bad t) i r -> wf_Type t ->
  tfol r -> long_ok (type_ends_long t) r -> Ev p i (Some (t, r)).
Definition Cpl_ReturnType N (p : pexp ReturnType) : Prop := forall bad i r t, length i <= N -> Conc (show_ReturnType bad t) i r -> wf_ReturnType t ->
  tfol r -> long_ok (return_ends_long t) r -> Ev p i (Some (t, r)).
Definition Cpl_RecordKeyType N (p : pexp RecordKeyType) : Prop := forall i j t, length i <= N -> Conc (show_RecordKeyType t) i (TPunct "," :: j) ->
  wf_RecordKeyType t -> Ev p i (Some (t, TPunct "," :: j)).
Definition ufol (r : list tok) : Prop := exists j, r = kw "or" :: j \/ r = TPunct ")" :: j.
Definition Cpl_UnionMemberType N (p : pexp UnionMemberType) : Prop := forall i r t, length i <= N -> Conc (show_UnionMemberType t) i r ->
  wf_UnionMemberType t -> ufol r -> Ev p i (Some (t, r)).
Definition afol (c : string) (r : list tok) : Prop := exists j, r = TPunct "," :: j \/ r = TPunct c :: j.
Definition Cpl_ExtendedAttribute N (p : pexp ExtendedAttribute) : Prop := forall i r t, length i <= N -> Conc (show_ExtendedAttribute t) i r ->
  wf_ExtendedAttribute t -> afol "]" r -> Ev p i (Some (t, r)).

Lemma sep_kw t s : term_tok t = kw s -> forall g i r, Conc (GKw s :: g) i r -> exists j, i = term_tok t :: j /\ Conc g j r.
Proof. intros -> g i r. apply Conc_kw_inv. Qed.
Lemma sep_p t s : term_tok t = TPunct s -> forall g i r, Conc (GP s :: g) i r -> exists j, i = term_tok t :: j /\ Conc g j r.
Proof. intros -> g i r. apply Conc_p_inv. Qed.

Ltac ev1 := first [apply Ev_T | apply Ev_ident | apply Ev_str | eassumption].
Ltac ev := repeat first [apply Ev_ret | eapply Ev_bind; [ev1|cbv beta] ].

Section Complete.
  Variable N : nat.
  Hypothesis HT : forall M, M < N -> Cpl_Type M (PNT NT_Type).
  Hypothesis HR : forall M, M < N -> Cpl_ReturnType M (PNT NT_ReturnType).
  Hypothesis HK : forall M, M < N -> Cpl_RecordKeyType M (PNT NT_RecordKeyType).
  Hypothesis HU : forall M, M < N -> Cpl_UnionMemberType M (PNT NT_UnionMemberType).
  Hypothesis HA : forall M, M < N -> Cpl_ExtendedAttribute M (PNT NT_ExtendedAttribute).

  Lemma Cgen_Type i r t : length i < N -> Conc (GP "<" :: show_Type [] t ++ [GP ">"]) i r -> wf_Type t ->
    Ev (e_Generics (PNT NT_Type)) i (Some (t, r)).
  Proof.
    intros HN H Hw. cinv H. cbn [length] in HN.
    assert (E : Ev (PNT NT_Type) j (Some (t, TPunct ">" :: r))).
    { apply (HT (length j)) with (bad := []); auto; [lia|apply tfol_p; discriminate|intros _ r'; discriminate]. }
    unfold e_Generics. eapply Ev_bind; [apply (Ev_T LessThan)|]. eapply Ev_bind; [exact E|].
    eapply Ev_bind; [apply (Ev_T GreaterThan)|]. apply Ev_ret.
  Qed.
  Lemma C_Sequence i r t : length i <= N -> Conc (show_SequenceType t) i r -> match t with mkSequenceType x => wf_Type x end ->
    Ev e_SequenceType i (Some (t, r)).
  Proof.
    destruct t as [x]. cbn [show_SequenceType]. intros HN H Hw. cinv1 H. cbn [length] in HN.
    apply Cgen_Type in H; auto. eapply Ev_bind; [apply (Ev_T Sequence)|]. eapply Ev_bind; [exact H|]. apply Ev_ret.
  Qed.
  Lemma C_FrozenArray i r t : length i <= N -> Conc (show_FrozenArrayType t) i r -> match t with mkFrozenArrayType x => wf_Type x end ->
    Ev e_FrozenArrayType i (Some (t, r)).
  Proof.
    destruct t as [x]. cbn [show_FrozenArrayType]. intros HN H Hw. cinv1 H. cbn [length] in HN.
    apply Cgen_Type in H; auto. eapply Ev_bind; [apply (Ev_T FrozenArray)|]. eapply Ev_bind; [exact H|]. apply Ev_ret.
  Qed.
  Lemma C_Promise i r t : length i <= N -> Conc (show_PromiseType t) i r -> match t with mkPromiseType x => wf_ReturnType x end ->
    Ev e_PromiseType i (Some (t, r)).
  Proof.
    destruct t as [x]. cbn [show_PromiseType]. intros HN H Hw. cinv H. cbn [length] in HN.
    assert (E : Ev (PNT NT_ReturnType) j0 (Some (x, TPunct ">" :: r))).
    { apply (HR (length j0)) with (bad := []); auto; [lia|apply tfol_p; discriminate|intros _ r'; discriminate]. }
    eapply Ev_bind; [apply (Ev_T Promise)|]. eapply Ev_bind; [|apply Ev_ret].
    eapply Ev_bind; [apply (Ev_T LessThan)|]. eapply Ev_bind; [exact E|].
    eapply Ev_bind; [apply (Ev_T GreaterThan)|]. apply Ev_ret.
  Qed.
  Lemma C_Record i r t : length i <= N -> Conc (show_RecordType t) i r -> match t with mkRecordType k v => wf_RecordKeyType k /\ wf_Type v end ->
    Ev e_RecordType i (Some (t, r)).
  Proof.
    destruct t as [k v]. cbn [show_RecordType]. intros HN H [Hw1 Hw2]. cinv H. cbn [length] in HN.
    pose proof (Conc_len _ _ _ K) as HL. cbn [length] in HL.
    assert (E1 : Ev (PNT NT_RecordKeyType) j0 (Some (k, TPunct "," :: j1))).
    { apply (HK (length j0)); auto. lia. }
    assert (E2 : Ev (PNT NT_Type) j1 (Some (v, TPunct ">" :: r))).
    { apply (HT (length j1)) with (bad := []); auto; [lia|apply tfol_p; discriminate|intros _ r'; discriminate]. }
    eapply Ev_bind; [apply (Ev_T Record_)|]. eapply (Ev_bind _ _ _ _ _ (k, v)); [|apply Ev_ret].
    eapply Ev_bind; [apply (Ev_T LessThan)|]. eapply Ev_bind.
    { eapply Ev_bind; [exact E1|]. eapply Ev_bind; [apply (Ev_T Comma)|]. eapply Ev_bind; [exact E2|]. apply Ev_ret. }
    eapply Ev_bind; [apply (Ev_T GreaterThan)|]. apply Ev_ret.
  Qed.
  Lemma C_UnionType i r l q : length i <= N -> Conc (GP "(" :: join (GKw "or") (map show_UnionMemberType l) ++ GP ")" :: opt_q q) i r ->
    All wf_UnionMemberType l -> tfol r -> Ev (e_MayBeNull e_UnionType) i (Some (mkMayBeNull l q, r)).
  Proof.
    intros HN H Hw Hr. cinv H. cbn [length] in HN. eapply Ev_null; eauto. cbn [type_].
    eapply Ev_bind; [apply (Ev_T OpenParen)|]. eapply Ev_bind; [|eapply Ev_bind; [apply (Ev_T CloseParen)|apply Ev_ret]].
    eapply (C_sep _ (PNT NT_UnionMemberType) Or (GKw "or") show_UnionMemberType wf_UnionMemberType true (length j)); eauto.
    - apply sep_kw; reflexivity.
    - exact (eq_refl true).
    - intros a i r' Hi Ha Hwa Hf. apply (HU (length j)); auto. 
      destruct Hf as [[k ->]| ->]; [exists k; left; reflexivity|eexists; right; reflexivity].
    - discriminate.
    - erej.
  Qed.

  Lemma Ev_generic_no A B t s (p : pexp A) (f : A -> B) e n i : term_tok t = kw s -> (forall r, i <> TPunct "<" :: r) ->
    Ev (T_ t ;;; g <- e_Generics p ;; PRet (f g)) (TName e n :: i) None.
  Proof.
    intros E Hi. destruct (tok_eqb (TName e n) (kw s)) eqn:Ek.
    - apply tok_eqb_eq in Ek. rewrite Ek, <- E. eapply Ev_bind; [apply Ev_T|]. apply Ev_bind_no. apply Ev_bind_no. apply Ev_T_no. exact Hi.
    - apply Ev_bind_no. apply Ev_T_no. intros r. rewrite E. intros [= -> -> ->]. unfold kw in Ek. rewrite tok_eqb_refl in Ek. discriminate.
  Qed.

  Lemma C_NonAnyType bad i r t : length i <= N -> Conc (show_NonAnyType bad t) i r -> wf_NonAnyType t ->
    tfol r -> long_ok (nonany_ends_long t) r -> Ev e_NonAnyType i (Some (t, r)).
  Proof.
    intros HN H Hw Hr Hl.
    Ltac kwcase H t := apply Conc_kw_null_inv in H as (j & -> & H); epick; apply (Ev_kw_null t); assumption.
    destruct t as [p|m|m|m|m|m|m|m|m|m|m|m|m|m|m|m|m|m|m|m|m|m|m|m|m|m|m|m|m]; cbn [show_NonAnyType nonany_ends_long] in *.
    - apply Ev_or1. apply Ev_map. apply C_Promise; auto.
    - destruct m as [t q]. cbn [show_null] in H. apply Conc_split in H as (j & H & Hq).
      assert (E : Ev (e_MayBeNull e_IntegerType) i (Some (mkMayBeNull t q, r))).
      { eapply Ev_null; eauto. cbn. apply C_IntegerType; auto.
        intros E r' ->. destruct t; try discriminate. apply Conc_q_inv in Hq. destruct q as [u|]; [discriminate|]. subst.
        apply (Hl eq_refl r'). reflexivity. }
      destruct t as [[[[]|]]|[[[]|]]|[[[]|]]]; cbn in H; cinv H; epick; exact E.
    - destruct m as [t q]. cbn [show_null] in H. apply Conc_split in H as (j & H & Hq).
      pose proof (C_FloatingPointType _ _ _ H) as H'.
      destruct t as [[[[]|]]|[[[]|]]]; cbn in H; cinv H; epick; eapply Ev_null; eauto.
    - kwcase H Boolean.
    - kwcase H Byte.
    - kwcase H Octet.
    - kwcase H ByteString.
    - kwcase H DOMString.
    - kwcase H USVString.
    - destruct m as [x q]. apply Conc_split in H as (j & H & Hq).
      assert (E : Ev (e_MayBeNull e_SequenceType) i (Some (mkMayBeNull x q, r))).
      { eapply Ev_null; eauto. cbn. apply C_Sequence; auto. }
      destruct x as [x]. cbn [show_SequenceType] in H. cinv1 H. epick. exact E.
    - kwcase H Object.
    - kwcase H Symbol.
    - kwcase H Error_.
    - kwcase H ArrayBuffer.
    - kwcase H DataView.
    - kwcase H Int8Array.
    - kwcase H Int16Array.
    - kwcase H Int32Array.
    - kwcase H Uint8Array.
    - kwcase H Uint16Array.
    - kwcase H Uint32Array.
    - kwcase H Uint8ClampedArray.
    - kwcase H Float32Array.
    - kwcase H Float64Array.
    - kwcase H ArrayBufferView.
    - kwcase H BufferSource.
    - destruct m as [x q]. apply Conc_split in H as (j & H & Hq).
      assert (E : Ev (e_MayBeNull e_FrozenArrayType) i (Some (mkMayBeNull x q, r))).
      { eapply Ev_null; eauto. cbn. apply C_FrozenArray; auto. }
      destruct x as [x]. cbn [show_FrozenArrayType] in H. cinv1 H. epick. exact E.
    - destruct m as [x q]. apply Conc_split in H as (j & H & Hq).
      assert (E : Ev (e_MayBeNull e_RecordType) i (Some (mkMayBeNull x q, r))).
      { eapply Ev_null; eauto. cbn. apply C_Record; auto. }
      destruct x as [k v]. cbn [show_RecordType] in H. cinv1 H. epick. exact E.
    - destruct m as [x q]. cbn [show_null app] in H. cinv H.
      assert (Hj : forall r', j <> TPunct "<" :: r').
      { apply Conc_q_inv in H. destruct q as [u|]; subst; [discriminate|apply Hr]. }
      assert (K' : e = false -> ~ In x (map str type_words) /\ ~ fuses x j).
      { intros He. destruct (K He) as [K1 K2]. split; auto. intros Hx. apply K1. rewrite map_app. apply in_or_app. auto. }
      Ltac nogen Hj := first [apply Ev_null_no; eapply Ev_generic_no; [reflexivity|exact Hj] | eapply Ev_generic_no; [reflexivity|exact Hj]].
      repeat (apply Ev_or2; [apply Ev_map_no; solve [nonum K' | nokw2 K' | nogen Hj]|]).
      apply Ev_or1. apply Ev_map. eapply Ev_null; eauto. apply Ev_ident.
  Qed.

  Lemma C_Type : Cpl_Type N e_Type.
  Proof.
    intros bad i r t HN H Hw Hr Hl. destruct t as [[|x]|[l q]]; cbn [show_Type show_SingleType type_ends_long] in *.
    - cinv H. apply Ev_or1. apply (Ev_map _ _ Type_Single _ _ SingleType_Any). apply Ev_or1.
      apply (Ev_map _ _ (fun _ => SingleType_Any) _ _ tt). apply (Ev_T Any).
    - apply Ev_or1. apply (Ev_map _ _ Type_Single _ _ (SingleType_NonAny x)). apply Ev_or2.
      + apply Ev_map_no. apply Ev_T_no. apply nonany_head in H as [_ H]. eapply head_not; [exact H|left; reflexivity|reflexivity].
      + apply Ev_or1. apply Ev_map. eapply C_NonAnyType; eauto.
    - apply Ev_or2.
      + cinv1 H. erej.
      + apply Ev_or1. apply Ev_map. apply C_UnionType; auto.
  Qed.
  Lemma C_ReturnType : Cpl_ReturnType N e_ReturnType.
  Proof.
    intros bad i r t HN H Hw Hr Hl. destruct t as [|x]; cbn [show_ReturnType return_ends_long] in *.
    - cinv H. apply Ev_or1. apply (Ev_map _ _ (fun _ => ReturnType_Undefined) _ _ tt). apply (Ev_T Undefined).
    - apply Ev_or2.
      + apply Ev_map_no. apply Ev_T_no. apply type_head in H as [_ H]. eapply head_not; [exact H|left; reflexivity|reflexivity].
      + apply Ev_or1. apply Ev_map. eapply C_Type; eauto.
  Qed.
  Lemma C_RecordKeyType : Cpl_RecordKeyType N e_RecordKeyType.
  Proof.
    intros i j t HN H Hw. destruct t as [| | |x]; cbn [show_RecordKeyType] in *.
    - cinv H. apply (Ev_accept 1). reflexivity.
    - cinv H. apply (Ev_accept 1). reflexivity.
    - cinv H. apply (Ev_accept 1). reflexivity.
    - assert (Hx : Ev e_NonAnyType i (Some (x, TPunct "," :: j))).
      { eapply C_NonAnyType; eauto; [destruct x; auto; destruct Hw|apply tfol_p; discriminate|intros _ r'; discriminate]. }
      assert (G : forall t i', exists m r', Ev (e_MayBeNull (T_ t)) (term_tok t :: i') (Some (m, r'))).
      { intros t [|y i']; [|destruct (tok_eqb y (TPunct "?")) eqn:E].
        - do 2 eexists. apply Ev_null_None; [apply Ev_T|discriminate].
        - apply tok_eqb_eq in E. subst. do 2 eexists. apply (Ev_null_Some _ _ _ tt tt). apply Ev_T.
        - do 2 eexists. apply Ev_null_None; [apply Ev_T|]. intros r' [= -> ->]. discriminate. }
      apply Ev_or2; [apply Ev_map_no; apply Ev_T_no; intros i' ->|].
      { destruct (G ByteString i') as (m & r' & E). assert (E' : Ev e_NonAnyType (kw "ByteString" :: i') (Some (NonAnyType_ByteString m, r'))) by (epick; exact E).
        pose proof (Ev_det _ _ _ _ _ Hx E') as [= -> _]. exact Hw. }
      apply Ev_or2; [apply Ev_map_no; apply Ev_T_no; intros i' ->|].
      { destruct (G DOMString i') as (m & r' & E). assert (E' : Ev e_NonAnyType (kw "DOMString" :: i') (Some (NonAnyType_DOMString m, r'))) by (epick; exact E).
        pose proof (Ev_det _ _ _ _ _ Hx E') as [= -> _]. exact Hw. }
      apply Ev_or2; [apply Ev_map_no; apply Ev_T_no; intros i' ->|].
      { destruct (G USVString i') as (m & r' & E). assert (E' : Ev e_NonAnyType (kw "USVString" :: i') (Some (NonAnyType_USVString m, r'))) by (epick; exact E).
        pose proof (Ev_det _ _ _ _ _ Hx E') as [= -> _]. exact Hw. }
      apply Ev_or1. apply Ev_map. exact Hx.
  Qed.

  Lemma ufol_tfol r : ufol r -> tfol r /\ forall b, long_ok b r.
  Proof. intros (j & [-> | ->]); (split; [split; discriminate|intros b _ r'; discriminate]). Qed.

  Lemma C_attributes_no i : (forall j, i <> TPunct "[" :: j) -> Ev e_attributes i (Some (None, i)).
  Proof. intros H. apply Ev_opt_None. apply Ev_bind_no. apply Ev_T_no. exact H. Qed.
  Lemma C_attributes i r l : length i <= N -> Conc (show_attributes (Some l)) i r -> wf_attributes (Some l) ->
    Ev e_attributes i (Some (Some l, r)).
  Proof.
    cbn [show_attributes wf_attributes]. intros HN H Hw. cinv H. cbn [length] in HN. apply Ev_opt_Some.
    eapply Ev_bind; [apply (Ev_T OpenBracket)|]. eapply Ev_bind; [|eapply Ev_bind; [apply (Ev_T CloseBracket)|apply Ev_ret]].
    eapply (C_sep _ (PNT NT_ExtendedAttribute) Comma (GP ",") show_ExtendedAttribute wf_ExtendedAttribute true (length j)); eauto.
    - apply sep_p; reflexivity.
    - exact (eq_refl true).
    - intros a i r' Hi Ha Hwa Hf. apply (HA (length j)); auto.
      destruct Hf as [[k ->]| ->]; [exists k; left; reflexivity|eexists; right; reflexivity].
    - discriminate.
    - erej.
  Qed.
  (** Attributes, or none where what comes next does not start with [\[]. *)
  Lemma C_attributes' i j a : length i <= N -> Conc (show_attributes a) i j -> wf_attributes a ->
    (a = None -> forall k, j <> TPunct "[" :: k) -> Ev e_attributes i (Some (a, j)).
  Proof.
    intros HN H Hw Hj. destruct a as [l|]; [apply C_attributes; auto|]. apply Conc_nil_inv in H. subst. apply C_attributes_no; auto.
  Qed.
  Lemma type_no_bracket bad t i r : Conc (show_Type bad t) i r -> forall j, i <> TPunct "[" :: j.
  Proof. intros H j ->. apply type_head in H as [[(e & n & i' & [=])|(i' & [=])] _]. Qed.
  Lemma return_no_bracket bad t i r : Conc (show_ReturnType bad t) i r -> forall j, i <> TPunct "[" :: j.
  Proof. intros H j ->. apply return_head in H as [[(e & n & i' & [=])|(i' & [=])] _]. Qed.

  Lemma show_AttributedType_eq bad a x :
    show_AttributedType bad (mkAttributedType a x) =
    show_attributes a ++ show_Type (match a with Some _ => [] | None => bad end) x.
  Proof. destruct a as [l|]; cbn [show_AttributedType show_attributes]; norm; reflexivity. Qed.
  Lemma C_AttributedType bad i r t : length i <= N -> Conc (show_AttributedType bad t) i r -> wf_AttributedType t ->
    tfol r -> long_ok (attributed_ends_long t) r -> Ev e_AttributedType i (Some (t, r)).
  Proof.
    intros HN H Hw Hr Hl. destruct t as [a x]. rewrite show_AttributedType_eq in H. apply Conc_split in H as (j & H1 & H2).
    destruct Hw as [Hw1 Hw2]. pose proof (Conc_len _ _ _ H1).
    eapply Ev_bind; [apply C_attributes'; eauto; intros _; eapply type_no_bracket; eauto|].
    eapply Ev_bind; [eapply C_Type; eauto; lia|]. apply Ev_ret.
  Qed.
  Lemma C_UnionMemberType : Cpl_UnionMemberType N e_UnionMemberType.
  Proof.
    intros i r t HN H Hw Hr. destruct (ufol_tfol _ Hr) as [Hr1 Hr2]. destruct t as [[a x]|[l q]].
    - apply Ev_or1. apply Ev_map. change (Conc (show_attributes a ++ show_NonAnyType [] x) i r) in H.
      apply Conc_split in H as (j & H1 & H2). destruct Hw as [Hw1 Hw2]. pose proof (Conc_len _ _ _ H1).
      eapply Ev_bind; [apply C_attributes'; eauto|].
      { intros _ k ->. apply nonany_head in H2 as [(e & n & i' & [=]) _]. }
      eapply Ev_bind; [eapply C_NonAnyType; eauto; lia|]. apply Ev_ret.
    - cbn [show_UnionMemberType wf_UnionMemberType] in *. apply Ev_or2; [cinv1 H; erej|].
      apply Ev_or1. apply Ev_map. apply C_UnionType; auto.
  Qed.

  (** *** Arguments *)
  Lemma Ev_default v r : Ev e_Default (TPunct "=" :: default_toks v ++ r) (Some (v, r)).
  Proof.
    eapply Ev_bind; [apply (Ev_T Assign)|]. eapply Ev_bind; [|apply Ev_ret]. apply Ev_term. cbn [tok_sem]. rewrite default_of_toks. auto.
  Qed.
  Lemma Conc_default_inv v g i r : Conc (show_DefaultValue v ++ g) i r -> exists j, i = default_toks v ++ j /\ Conc g j r.
  Proof.
    destruct v as [[]| | |[]| | |]; cbn; intros H; inversion H; subst; eauto.
    - match goal with K : Conc (GP "]" :: _) _ _ |- _ => inversion K; subst; eauto end.
    - match goal with K : Conc (GP "}" :: _) _ _ |- _ => inversion K; subst; eauto end.
  Qed.
  Lemma C_opt_default d g i r : Conc (show_default d ++ g) i r -> (d = None -> forall k, i <> TPunct "=" :: k) ->
    exists j, Ev (e_Option e_Default) i (Some (d, j)) /\ Conc g j r.
  Proof.
    intros H Hd. destruct d as [v|]; cbn [show_default app] in H.
    - apply Conc_p_inv in H as (j & -> & H). apply Conc_default_inv in H as (k & -> & H). exists k. split; auto.
      apply Ev_opt_Some. apply Ev_default.
    - exists i. split; auto. apply Ev_opt_None. apply Ev_bind_no. apply Ev_T_no. apply Hd. auto.
  Qed.
  Lemma afol_eq r : afol ")" r -> forall k, r <> TPunct "=" :: k.
  Proof. intros (j & [-> | ->]); discriminate. Qed.

  Lemma C_Argument i r a : length i <= N -> Conc (show_Argument a) i r -> wf_Argument a -> afol ")" r ->
    Ev e_Argument i (Some (a, r)).
  Proof.
    intros HN H Hw Hr. destruct a as [[at_ o t x d]|[at_ t x]].
    - change (Conc (show_attributes at_ ++ opt_kw o "optional" ++ show_AttributedType (unless o ["optional"%string]) t ++
        name_after (attributed_ends_long t) x :: show_default d) i r) in H.
      destruct Hw as (Hw1 & Hw2 & Hw3 & Hw4). apply Conc_split in H as (j & H1 & H). apply Conc_split in H as (k & H2 & H).
      apply Conc_split in H as (l & H3 & H). cinv1 H. apply Conc_optkw_inv in H2.
      pose proof (Conc_len _ _ _ H1). pose proof (Conc_len _ _ _ H3).
      assert (Hkj : length k <= length j) by (destruct o; subst; cbn; lia).
      assert (Hfol : tfol (TName e x :: j0)) by apply tfol_name.
      assert (Hk : o = None -> forall k', k <> kw "optional" :: k').
      { intros ->. cbn [unless] in H3. destruct t as [[tl|] tt']; rewrite show_AttributedType_eq in H3.
        - cbn [show_attributes app] in H3. cinv1 H3. discriminate.
        - apply type_head in H3 as [_ H3]. eapply head_not; [exact H3|left; reflexivity|reflexivity]. }
      apply Ev_or1. apply Ev_map.
      eapply Ev_bind; [apply C_attributes'; eauto|].
      { intros ->. destruct o as [u|]; subst; [discriminate|]. destruct t as [ta tt']. cbn in Hw4. rewrite Hw4 in H3 by auto.
        eapply type_no_bracket. exact H3. }
      apply (Ev_bind _ _ _ _ _ o k).
      { destruct o as [[]|]; subst; [apply Ev_opt_Some; apply (Ev_T Optional)|apply Ev_opt_None; apply Ev_T_no; apply Hk; auto]. }
      eapply Ev_bind; [eapply C_AttributedType; eauto; lia|].
      eapply Ev_bind; [apply Ev_ident|].
      destruct o as [u|].
      + rewrite <- (app_nil_r (show_default d)) in H. apply C_opt_default in H as (j' & K4 & K5).
        * apply Conc_nil_inv in K5. subst j'. eapply Ev_bind; [|apply Ev_ret].
          apply (Ev_map _ _ (fun d => match d with Some d' => d' | None => None end) _ _ (Some d)). apply Ev_map. exact K4.
        * intros ->. apply Conc_nil_inv in H. subst. apply afol_eq; auto.
      + destruct d as [d|]; [exfalso; apply Hw3; [discriminate|reflexivity]|]. apply Conc_nil_inv in H. subst.
        eapply Ev_bind; [|apply Ev_ret].
        apply (Ev_map _ _ (fun d => match d with Some d' => d' | None => None end) _ _ None). apply Ev_ret.
    - change (Conc (show_attributes at_ ++ show_Type [] t ++ [GP "..."; GId [] x]) i r) in H.
      destruct Hw as [Hw1 Hw2]. apply Conc_split in H as (j & H1 & H). apply Conc_split in H as (k & H2 & H). cinv H.
      pose proof (Conc_len _ _ _ H1).
      assert (Ea : Ev e_attributes i (Some (at_, j))). { apply C_attributes'; auto. intros _. eapply type_no_bracket; eauto. }
      assert (Et : Ev e_Type j (Some (t, TPunct "..." :: TName e x :: r))).
      { eapply C_Type; eauto; [lia|apply tfol_p; discriminate|intros _ r'; discriminate]. }
      apply Ev_or2.
      + apply Ev_map_no. eapply Ev_bind; [exact Ea|].
        destruct (tok_eqb (hd (TPunct "") j) (kw "optional")) eqn:E.
        * apply tok_eqb_eq in E. destruct j as [|y j]; [discriminate|]. cbn [hd] in E. subst y.
          eapply Ev_bind; [apply Ev_opt_Some; apply (Ev_T Optional)|]. apply Ev_bind_no.
          apply raw_type in H2 as (q & -> & H2); [|reflexivity]. apply Conc_q_inv in H2. destruct q; subst; erej.
        * eapply Ev_bind; [apply Ev_opt_None; apply Ev_T_no; intros k ->; discriminate E|].
          eapply Ev_bind. { eapply Ev_bind; [apply C_attributes_no; eapply type_no_bracket; eauto|]. eapply Ev_bind; [exact Et|]. apply Ev_ret. }
          apply Ev_bind_no. erej.
      + apply Ev_or1. apply Ev_map. eapply Ev_bind; [exact Ea|]. eapply Ev_bind; [exact Et|].
        eapply Ev_bind; [apply (Ev_T Ellipsis)|]. eapply Ev_bind; [apply Ev_ident|]. apply Ev_ret.
  Qed.
  Lemma C_args i r l : length i <= N -> Conc (show_args l) i r -> wf_args l -> Ev (e_Parenthesized e_ArgumentList) i (Some (l, r)).
  Proof.
    unfold show_args, wf_args. intros HN H Hw. cinv H. cbn [length] in HN.
    eapply Ev_bind; [apply (Ev_T OpenParen)|]. eapply Ev_bind; [|eapply Ev_bind; [apply (Ev_T CloseParen)|apply Ev_ret]].
    eapply (C_sep _ e_Argument Comma (GP ",") show_Argument wf_Argument true (length j)); eauto.
    - apply sep_p; reflexivity.
    - apply Shape_e_Argument.
    - intros a i r' Hi Ha Hwa Hf. apply C_Argument; auto; [lia|].
      destruct Hf as [[k ->]| ->]; [exists k; left; reflexivity|eexists; right; reflexivity].
    - discriminate.
    - erej.
  Qed.
  Lemma C_ExtendedAttribute : Cpl_ExtendedAttribute N e_ExtendedAttribute.
  Proof.
    intros i r t HN H Hw Hr.
    assert (Hn : forall s, s = "("%string \/ s = "="%string -> forall k, r <> TPunct s :: k).
    { intros s Hs k ->. destruct Hr as (j & [[= -> _]|[= -> _]]); destruct Hs as [Hs|Hs]; discriminate. }
    destruct t as [[x args]|[x y args]|[x l]|[x y]|[x]|x]; cbn [show_ExtendedAttribute wf_ExtendedAttribute] in *.
    - apply Conc_id_inv in H as (e & j & -> & _ & H). apply Ev_or1. apply Ev_map.
      cbn [length] in HN. eapply Ev_bind; [apply Ev_ident|]. eapply Ev_bind; [apply C_args; eauto; lia|]. apply Ev_ret.
    - apply Conc_id_inv in H as (e & j & -> & _ & H). apply Conc_p_inv in H as (j' & -> & H).
      apply Conc_id_inv in H as (e' & j & -> & _ & H). cbn [length] in HN.
      apply Ev_or2; [erej|]. apply Ev_or1. apply Ev_map.
      eapply Ev_bind; [apply Ev_ident|]. eapply Ev_bind; [apply (Ev_T Assign)|]. eapply Ev_bind; [apply Ev_ident|].
      eapply Ev_bind; [apply C_args; eauto; lia|]. apply Ev_ret.
    - cinv H. apply Ev_or2; [erej|]. apply Ev_or2; [erej|]. apply Ev_or1. apply Ev_map.
      eapply Ev_bind; [apply Ev_ident|]. eapply Ev_bind; [apply (Ev_T Assign)|]. eapply Ev_bind; [|apply Ev_ret].
      eapply Ev_bind; [apply (Ev_T OpenParen)|]. eapply Ev_bind; [|eapply Ev_bind; [apply (Ev_T CloseParen)|apply Ev_ret]].
      eapply (C_sep _ e_Identifier Comma (GP ",") (fun n : Identifier => [GId [] n]) (fun _ => True) true); eauto.
      + apply sep_p; reflexivity.
      + intros a i r' Hi Ha Hwa Hf. cinv Ha. apply Ev_ident.
      + discriminate.
      + erej.
      + clear. induction l; cbn; auto.
    - destruct y as [y|y]; cbn [show_IdentifierOrString] in H; cinv H.
      + apply Ev_or2; [erej|]. apply Ev_or2.
        { apply Ev_map_no. eapply Ev_bind; [apply Ev_ident|]. eapply Ev_bind; [apply (Ev_T Assign)|]. eapply Ev_bind; [apply Ev_ident|].
          apply Ev_bind_no. apply Ev_bind_no. apply Ev_T_no. apply (Hn "("%string). auto. }
        apply Ev_or2; [erej|]. apply (Ev_accept 1). reflexivity.
      + apply (Ev_accept 1). reflexivity.
    - cinv H. apply (Ev_accept 1). reflexivity.
    - cinv H. destruct Hr as (k & [-> | ->]); (repeat (apply Ev_or2; [erej|]));
        (apply Ev_or1; apply Ev_map; apply Ev_ident).
  Qed.
End Complete.

(** ** Tying the knot *)
Lemma Cpl_all N : Cpl_Type N (PNT NT_Type) /\ Cpl_ReturnType N (PNT NT_ReturnType) /\ Cpl_RecordKeyType N (PNT NT_RecordKeyType) /\
  Cpl_UnionMemberType N (PNT NT_UnionMemberType) /\ Cpl_ExtendedAttribute N (PNT NT_ExtendedAttribute).
Proof.
  induction N as [N IH] using lt_wf_ind.
  assert (HT : forall M, M < N -> Cpl_Type M (PNT NT_Type)) by (intros M HM; apply (IH M HM)).
  assert (HR : forall M, M < N -> Cpl_ReturnType M (PNT NT_ReturnType)) by (intros M HM; apply (IH M HM)).
  assert (HK : forall M, M < N -> Cpl_RecordKeyType M (PNT NT_RecordKeyType)) by (intros M HM; apply (IH M HM)).
  assert (HU : forall M, M < N -> Cpl_UnionMemberType M (PNT NT_UnionMemberType)) by (intros M HM; apply (IH M HM)).
  assert (HA : forall M, M < N -> Cpl_ExtendedAttribute M (PNT NT_ExtendedAttribute)) by (intros M HM; apply (IH M HM)).
  repeat split.
  - intros bad i r t H1 H2 H3 H4 H5. apply Ev_nt. eapply (C_Type N); eauto.
  - intros bad i r t H1 H2 H3 H4 H5. apply Ev_nt. eapply (C_ReturnType N); eauto.
  - intros i j t H1 H2 H3. apply Ev_nt. eapply (C_RecordKeyType N); eauto.
  - intros i r t H1 H2 H3 H4. apply Ev_nt. eapply (C_UnionMemberType N); eauto.
  - intros i r t H1 H2 H3 H4. apply Ev_nt. eapply (C_ExtendedAttribute N); eauto.
Qed.

Lemma Cf_Type bad i r t : Conc (show_Type bad t) i r -> wf_Type t -> tfol r -> long_ok (type_ends_long t) r ->
  Ev e_Type i (Some (t, r)).
Proof. intros. eapply (C_Type (length i)); eauto; intros M _; apply (Cpl_all M). Qed.
Lemma Cf_ReturnType bad i r t : Conc (show_ReturnType bad t) i r -> wf_ReturnType t -> tfol r -> long_ok (return_ends_long t) r ->
  Ev e_ReturnType i (Some (t, r)).
Proof. intros. eapply (C_ReturnType (length i)); eauto; intros M _; apply (Cpl_all M). Qed.
Lemma Cf_attributes i j a : Conc (show_attributes a) i j -> wf_attributes a -> (a = None -> forall k, j <> TPunct "[" :: k) ->
  Ev e_attributes i (Some (a, j)).
Proof. intros. eapply (C_attributes' (length i)); eauto; intros M _; apply (Cpl_all M). Qed.
Lemma Cf_AttributedType bad i r t : Conc (show_AttributedType bad t) i r -> wf_AttributedType t -> tfol r ->
  long_ok (attributed_ends_long t) r -> Ev e_AttributedType i (Some (t, r)).
Proof. intros. eapply (C_AttributedType (length i)); eauto; intros M _; apply (Cpl_all M). Qed.
Lemma Cf_args i r l : Conc (show_args l) i r -> wf_args l -> Ev (e_Parenthesized e_ArgumentList) i (Some (l, r)).
Proof. intros. eapply (C_args (length i)); eauto; intros M _; apply (Cpl_all M). Qed.
