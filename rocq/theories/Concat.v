(** * Lists of members are put together like their texts

    A member, like a definition, ends with a semicolon.  So texts of members can be put one after the other, and a text of
    members can be divided wherever its list can. *)
From Coq Require Import String Ascii NArith Arith Bool List Lia.
From Verif Require Import Nom Lex Ast Grammar Spec LexFacts NumFacts TokFacts RunFacts Shapes TermFacts Api ApiFacts LexProps
  Tok TokRun TokSound TokComplete TokMembers Shows Exact Nodes Items Attr.
Import ListNotations.
Open Scope list_scope.

(** src/interface.rs:19-119, src/mixin.rs:12-36, src/namespace.rs:12-42, src/dictionary.rs:10-17, src/lib.rs:116-241. *)
Inductive Item : forall A : Type, pexp A -> Prop :=
| It_InterfaceMember : Item _ e_InterfaceMember
| It_MixinMember : Item _ e_MixinMember
| It_NamespaceMember : Item _ e_NamespaceMember
| It_DictionaryMember : Item _ e_DictionaryMember
| It_Definition : Item _ e_Definition.
Lemma Item_Impl A p : Item A p -> Impl true A p.
Proof. destruct 1; constructor. Qed.

(** What is used of them. *)
Definition Closed {A} (p : pexp A) : Prop := exists (Q : A -> list tok -> Prop),
  (forall s rest m, parse_as p s = Ok rest m <-> exists ts, Ats ts s rest /\ Q m ts) /\
  (forall m ts, Q m ts -> exists init, ts = init ++ [TPunct ";"]).
Lemma Conc_end g ts : Conc (g ++ [GP ";"]) ts [] -> exists init, ts = init ++ [TPunct ";"].
Proof.
  intros H. apply Conc_split in H as (k & H2 & H3). apply Conc_suffix in H2 as [y ->].
  inversion H3 as [| |s g' i' r' H4| | | | | | | | | |]; subst. inversion H4; subst. eauto.
Qed.
Lemma Closed_line A (p : pexp A) (show : A -> list gtok) (wf : A -> Prop) :
  (forall s rest m, parse_as p s = Ok rest m <-> exists ts, Ats ts s rest /\ Conc (show m) ts [] /\ wf m) ->
  (forall m, exists h, show m = h ++ [GP ";"]) -> Closed p.
Proof.
  intros H H'. exists (fun m ts => Conc (show m) ts [] /\ wf m). split.
  - intros. rewrite H. split; intros (ts & K & K'); eauto.
  - intros m ts (K & _). destruct (H' m) as (h & E). rewrite E in K. eapply Conc_end; eauto.
Qed.
Lemma Item_Closed A p : Item A p -> Closed p.
Proof.
  pose (T := fun _ : list gtok => True).
  assert (HL : forall g, Line T g -> exists h, g = h ++ [GP ";"]) by (intros g (h & -> & _); eauto).
  destruct 1.
  - apply (Closed_line _ _ _ _ InterfaceMember_exact). intros m. apply HL, L_InterfaceMember; unfold T; auto.
  - apply (Closed_line _ _ _ _ MixinMember_exact). intros m. apply HL, L_MixinMember; unfold T; auto.
  - apply (Closed_line _ _ _ _ NamespaceMember_exact). intros m. apply HL, L_NamespaceMember; unfold T; auto.
  - apply (Closed_line _ _ _ _ DictionaryMember_exact). intros m. apply HL, L_DictionaryMember; unfold T; auto.
  - apply (Closed_line _ _ _ _ Definition_exact). intros m. destruct (show_end [m]) as (g & E); [discriminate|].
    cbn in E. rewrite app_nil_r in E. eauto.
Qed.

(** ** Tokens in a longer text *)
Lemma NoBlank_token t r : valid_tok t -> NoBlank (spell t ++ r).
Proof.
  intros Hv a q Ha E. destruct (spell_head t Hv) as (c & x & Es & Hc). rewrite Es in E.
  assert (Hs : c <> 47%N /\ ~ blank_char c).
  { destruct t as [[]| | | | |]; try (apply puncts_head in Hc; tauto); unfold letter, digit, blank_char in *; split; ulia. }
  destruct Ha; cbn in E; injection E; intros; subst; tauto.
Qed.
(** After a token the text starts with, if without blanks, another token. *)
Lemma Ats_NoBlank t ts i r b : NoBlank i -> Ats (t :: ts) i r -> NoBlank (i ++ b).
Proof.
  intros Hn (j & (w & w' & E & Hw & Hv & _) & _). assert (w = []) as ->.
  { destruct Hw as [|a w Ha Hw]; auto. exfalso. rewrite <- app_assoc in E. apply (Hn a _ Ha E). }
  cbn in E. rewrite E, <- app_assoc. apply NoBlank_token; auto.
Qed.
Lemma Ats_semi init i r : Ats (init ++ [TPunct ";"]) i r -> exists u v, i = u ++ 59%N :: v ++ r.
Proof.
  revert i. induction init as [|t init IH]; cbn [app]; intros i (j & (w & w' & -> & Hw & Hv & He & Hw' & Hn) & H).
  - cbn in H. subst j. exists w, w'. reflexivity.
  - apply IH in H as (u & v & ->). exists (w ++ spell t ++ w' ++ u), v. rewrite <- !app_assoc. auto.
Qed.
(** What follows the last semicolon does not matter. *)
Lemma Ats_extend init b w b' : b = w ++ b' -> Blank w -> forall i r r', Ats (init ++ [TPunct ";"]) i r ->
  (r = [] /\ r' = b' \/ w = [] /\ r' = r ++ b) -> NoBlank r' -> Ats (init ++ [TPunct ";"]) (i ++ b) r'.
Proof.
  intros -> Hw. induction init as [|t init IH]; intros i r r' H Hr Hn.
  - cbn in H. destruct H as (j & (u & u' & -> & Hu & Hv & He & Hu' & Hj) & ->). exists r'. split; [|reflexivity].
    destruct Hr as [[-> ->]|[-> ->]].
    + exists u, (u' ++ w). rewrite app_nil_r, <- !app_assoc. repeat split; auto using Blank_app.
    + exists u, u'. cbn [app]. rewrite <- !app_assoc. cbn [app]. repeat split; auto.
  - cbn [app] in *. destruct H as (j & (u & u' & -> & Hu & Hv & He & Hu' & Hj) & H). exists (j ++ w ++ b'). split.
    + exists u, u'. rewrite <- !app_assoc. repeat split; auto.
      * destruct (Ats_semi _ _ _ H) as (x & y & ->). rewrite <- app_assoc. cbn [app]. rewrite app_assoc.
        apply ends_ok_extend. { unfold num_char, hexdigit. ulia. }
        apply (ends_ok_prefix _ _ (y ++ r)). rewrite <- !app_assoc. cbn [app]. auto.
      * destruct (init ++ [TPunct ";"]) as [|t' ts'] eqn:E; [destruct init; discriminate|]. eapply Ats_NoBlank; eauto.
    + apply (IH j r r'); auto.
Qed.
(** What follows the rest does not matter. *)
Lemma NoBlank_prefix r b : NoBlank (r ++ b) -> NoBlank r.
Proof. intros H a q Ha ->. apply (H a (q ++ b)); auto. rewrite app_assoc. auto. Qed.
Lemma Ats_cut ts b : forall i r, Ats ts (i ++ b) (r ++ b) -> Ats ts i r.
Proof.
  induction ts as [|t ts IH]; cbn [Ats]; intros i r H.
  - apply app_inv_tail in H. auto.
  - destruct H as (j & (u & u' & E & Hu & Hv & He & Hu' & Hj) & H).
    assert (Hs : exists j', j = j' ++ b).
    { clear -H. revert j H. induction ts as [|t ts IH]; cbn [Ats]; intros j H; [eauto|].
      destruct H as (k & (u & u' & -> & _) & H). apply IH in H as (j' & ->). exists (u ++ spell t ++ u' ++ j'). rewrite <- !app_assoc. auto. }
    destruct Hs as (j' & ->). exists j'. split; [|auto].
    rewrite !app_assoc in E. apply app_inv_tail in E. subst i. exists u, u'. rewrite <- !app_assoc in *.
    repeat split; auto.
    + rewrite app_assoc in He. eapply ends_ok_prefix; eauto.
    + eapply NoBlank_prefix; eauto.
Qed.

(** ** Items *)
Section Items.
  Context {A : Type} {p : pexp A}.
  Hypothesis HI : Item A p.

  (** An item may be followed by anything. *)
  Lemma item_extend a b w b' r r' x : parse_as p a = Ok r x -> b = w ++ b' -> Blank w ->
    (r = [] /\ r' = b' \/ w = [] /\ r' = r ++ b) -> NoBlank r' -> parse_as p (a ++ b) = Ok r' x.
  Proof.
    intros E Eb Hw Hr Hn. destruct (Item_Closed _ _ HI) as (Q & HQ & Hs). destruct (proj1 (HQ _ _ _) E) as (ts & Ha & Hq). apply HQ. exists ts. split; auto.
    destruct (Hs _ _ Hq) as (init & ->). eapply Ats_extend; eauto.
  Qed.
  Lemma item_cut a b r x : parse_as p (a ++ b) = Ok (r ++ b) x -> parse_as p a = Ok r x.
  Proof.
    intros E. destruct (Item_Closed _ _ HI) as (Q & HQ & Hs). destruct (proj1 (HQ _ _ _) E) as (ts & Ha & Hq). apply HQ. exists ts. split; auto.
    eapply Ats_cut; eauto.
  Qed.
  (** The rest of an item, and the text without the blanks in front. *)
  Lemma item_rest a r x : parse_as p a = Ok r x -> NoBlank r.
  Proof.
    intros E. destruct (Item_Closed _ _ HI) as (Q & HQ & Hs). destruct (proj1 (HQ _ _ _) E) as (ts & Ha & Hq).
    destruct (Hs _ _ Hq) as (init & ->). clear -Ha. revert a Ha. induction init as [|t init IH]; cbn [app Ats].
    - intros a (j & (u & u' & _ & _ & _ & _ & _ & Hj) & <-). auto.
    - intros a (j & _ & H). eauto.
  Qed.
  Lemma item_token a r x b : NoBlank a -> parse_as p a = Ok r x -> NoBlank (a ++ b).
  Proof.
    intros Hn E. destruct (Item_Closed _ _ HI) as (Q & HQ & Hs). destruct (proj1 (HQ _ _ _) E) as (ts & Ha & Hq).
    destruct (Hs _ _ Hq) as (init & ->). destruct (init ++ [TPunct ";"]) as [|t ts] eqn:Et; [destruct init; discriminate|].
    eapply Ats_NoBlank; eauto.
  Qed.
  Lemma item_blank w a r x : Blank w -> NoBlank a -> parse_as p (w ++ a) = Ok r x -> parse_as p a = Ok r x.
  Proof.
    intros Hw Hn E. destruct (Item_Closed _ _ HI) as (Q & HQ & Hs). destruct (proj1 (HQ _ _ _) E) as (ts & Ha & Hq).
    apply HQ. exists ts. split; auto. destruct (Hs _ _ Hq) as (init & ->).
    destruct (init ++ [TPunct ";"]) as [|t ts] eqn:Et; [destruct init; discriminate|].
    destruct Ha as (j & (u & u' & Ea & Hu & Hv & He & Hu' & Hj) & H). exists j. split; auto.
    destruct (Blank_unique w Hw u a (spell t ++ u' ++ j) Hu Hn) as [_ ->]; auto. { apply NoBlank_token; auto. }
    exists [], u'. repeat split; auto. constructor.
  Qed.

  Lemma chain_extend a x r b w b' : Chain (parse_as p) a x r -> r = [] -> x <> [] -> b = w ++ b' -> Blank w -> NoBlank b' ->
    Chain (parse_as p) (a ++ b) x b'.
  Proof.
    intros HC. induction HC as [i|i j r m l E HC IH]; intros Er Hx Eb Hw Hb; [congruence|]. subst r.
    inversion HC as [|? k ? m' l' E' HC']; subst.
    - econstructor; [|constructor]. eapply item_extend; eauto.
    - apply Chain_cons with (j := j ++ w ++ b').
      + eapply (item_extend _ _ [] (w ++ b')); eauto; [constructor|]. eapply item_token; eauto. eapply item_rest; eauto.
      + apply IH; auto. discriminate.
  Qed.
  Lemma chain_blank w a x r : Blank w -> NoBlank a -> x <> [] -> Chain (parse_as p) (w ++ a) x r -> Chain (parse_as p) a x r.
  Proof. intros Hw Hn Hx HC. inversion HC; subst; [congruence|]. econstructor; eauto. eapply item_blank; eauto. Qed.
  Lemma chain_app a x j y r : Chain (parse_as p) a x j -> Chain (parse_as p) j y r -> Chain (parse_as p) a (x ++ y) r.
  Proof. induction 1; cbn; auto. intros. econstructor; eauto. Qed.
  Lemma chain_split x y r : forall a, Chain (parse_as p) a (x ++ y) r -> exists j, Chain (parse_as p) a x j /\ Chain (parse_as p) j y r.
  Proof.
    induction x as [|m x IH]; cbn; intros a H; [exists a; split; [constructor|auto]|].
    inversion H; subst. match goal with K : Chain _ _ (x ++ y) _ |- _ => apply IH in K as (k & H1 & H2) end. exists k. split; auto. econstructor; eauto.
  Qed.
  Lemma chain_cut x b : forall a r, Chain (parse_as p) (a ++ b) x (r ++ b) -> Chain (parse_as p) a x r.
  Proof.
    induction x as [|m x IH]; intros a r H; inversion H as [|? j ? ? ? E HC]; subst.
    - match goal with K : _ ++ b = _ ++ b |- _ => apply app_inv_tail in K; subst end. constructor.
    - assert (Hs : exists j', j = j' ++ b).
      { clear -HC. remember (r ++ b) as q eqn:Eq. revert r Eq. induction HC as [i|i k q' m' l E HC IH]; intros r Eq; eauto.
        destruct (IH _ Eq) as (j' & ->). pose proof (trun_Good (S (length i)) A p i) as HG. unfold parse_as in E. rewrite E in HG.
        destruct HG as (z & ->). exists (z ++ j'). rewrite <- app_assoc. auto. }
      destruct Hs as (j' & ->). econstructor; [eapply item_cut; eauto|auto].
  Qed.
  Lemma Vec_Chain a r x : parse_as (e_Vec p) a = Ok r x <-> Chain (parse_as p) a x r /\ Fails (parse_as p) r.
  Proof.
    destruct (Vec_spec A p a (Item_Impl _ _ HI)) as (l & r' & E & HC & HF). rewrite E. split.
    - intros [= -> ->]. auto.
    - intros [HC' HF']. destruct (Chain_det _ _ _ _ _ HC HF _ _ HC' HF') as [-> ->]. auto.
  Qed.
  Lemma item_nil : Fails (parse_as p) [].
  Proof. apply Impl_blank; [apply Item_Impl; auto|constructor]. Qed.

  Theorem items_app a b x y r : parse_as (e_Vec p) a = Ok [] x -> parse_as (e_Vec p) b = Ok r y -> NoBlank r ->
    parse_as (e_Vec p) (a ++ b) = Ok r (x ++ y).
  Proof.
    rewrite !Vec_Chain. intros [Ha _] [Hb Hf] Hn. split; [|auto]. destruct x as [|m x].
    { inversion Ha; subst. auto. }
    destruct (blank_split b) as (w & b' & -> & Hw & Hb'). apply (chain_app _ _ b').
    - eapply chain_extend; eauto. discriminate.
    - destruct y as [|m' y].
      + inversion Hb; subst. assert (w = []) as ->; [|constructor].
        destruct Hw as [|c w Hc Hw]; auto. exfalso. apply (Hn c (w ++ b')); auto. rewrite <- app_assoc. auto.
      + apply (chain_blank w); auto. discriminate.
  Qed.
  Theorem items_cut s x y r : parse_as (e_Vec p) s = Ok r (x ++ y) ->
    exists a b, s = a ++ b /\ parse_as (e_Vec p) a = Ok [] x /\ parse_as (e_Vec p) b = Ok r y.
  Proof.
    rewrite Vec_Chain. intros [HC HF]. apply chain_split in HC as (j & H1 & H2).
    assert (Hs : exists a, s = a ++ j).
    { clear -H1. induction H1 as [i|i k q m l E HC IH]; [exists []; auto|]. destruct IH as (z & ->).
      pose proof (trun_Good (S (length i)) A p i) as HG. unfold parse_as in E. rewrite E in HG. destruct HG as (z' & ->).
      exists (z' ++ z). rewrite <- app_assoc. auto. }
    destruct Hs as (a & ->). exists a, j. split; [auto|]. rewrite !Vec_Chain. split; [|auto]. split; [|exact item_nil].
    apply (chain_cut x j a []). auto.
  Qed.
End Items.
