(** * Text that arrives in parts: what was read before stays, and parsing can go on at the rest *)
From Coq Require Import String Ascii NArith Arith Bool List Lia.
From Verif Require Import Nom Lex Ast Grammar Spec LexFacts NumFacts TokFacts RunFacts Shapes TermFacts Api ApiFacts LexProps
  Tok TokRun TokSound TokComplete TokMembers Shows Exact Print Items.
Import ListNotations.
Open Scope list_scope.

Lemma Lay_semi_any init : forall i r, Lay i (init ++ [TPunct ";"]) r -> exists u v, i = u ++ 59%N :: v ++ r.
Proof.
  induction init as [|t init IH]; cbn; intros i r H; inversion H as [|t' w i' ts' r' Hv He Hw Hl]; subst.
  - apply Lay_nil_inv in Hl. subst. exists [], w. reflexivity.
  - apply IH in Hl as (u & v & ->). exists (spell t ++ w ++ u), v. rewrite <- !app_assoc. auto.
Qed.
Lemma Lay_more init b : forall i r, Lay i (init ++ [TPunct ";"]) r -> Lay (i ++ b) (init ++ [TPunct ";"]) (r ++ b).
Proof.
  induction init as [|t init IH]; cbn [app]; intros i r H; inversion H as [|t' w i' ts' r' Hv He Hw Hl]; subst.
  - apply Lay_nil_inv in Hl. subst. rewrite <- !app_assoc. apply Lay_cons; auto; constructor.
  - rewrite <- !app_assoc. apply Lay_cons; auto. destruct (Lay_semi_any _ _ _ Hl) as (u & v & ->).
    rewrite <- app_assoc. cbn [app]. rewrite app_assoc. apply ends_ok_extend. { unfold num_char, hexdigit. ulia. }
    apply (ends_ok_prefix _ _ (v ++ r)). rewrite <- !app_assoc. cbn [app]. auto.
Qed.
Lemma Ats_Lay ts : forall i r, Ats ts i r -> ts <> [] -> exists w j, i = w ++ j /\ Blank w /\ Lay j ts r /\ NoBlank r.
Proof.
  induction ts as [|t ts IH]; intros i r H Hn; [congruence|]. destruct H as (k & (w & w' & -> & Hw & Hv & He & Hw' & Hk) & H).
  exists w, (spell t ++ w' ++ k). repeat split; auto.
  - apply Lay_cons; auto. destruct ts as [|t2 ts].
    + cbn in H. subst. constructor.
    + destruct (IH k r H) as (w2 & j & -> & Hw2 & Hl & Hr); [discriminate|].
      destruct Hw2 as [|a w2 Ha Hw2]; auto. exfalso. apply (Hk a (w2 ++ j)); auto. rewrite <- app_assoc. auto.
  - destruct ts as [|t2 ts].
    + cbn in H. subst. auto.
    + destruct (IH k r H) as (w2 & j & _ & _ & _ & Hr); [discriminate|]. auto.
Qed.
(** Tokens that end with a semicolon are not changed by more text; only blanks at the rest may become visible. *)
Lemma Ats_more init b i r : Ats (init ++ [TPunct ";"]) i r ->
  exists w r', r ++ b = w ++ r' /\ Blank w /\ NoBlank r' /\ Ats (init ++ [TPunct ";"]) (i ++ b) r'.
Proof.
  intros H. assert (Hn : init ++ [TPunct ";"] <> []) by (destruct init; discriminate).
  apply Ats_Lay in H as (w0 & j & -> & Hw0 & Hl & _); auto. apply (Lay_more _ b) in Hl.
  destruct (blank_split (r ++ b)) as (w & r' & E & Hw & Hr). exists w, r'. repeat split; auto.
  rewrite E in Hl. rewrite <- app_assoc. apply Lay_Ats; auto.
  rewrite <- (app_nil_r (init ++ _)). eapply Lay_join; eauto. constructor.
Qed.

Lemma Chain_join s xs r zs r' : Chain (parse_as e_Definition) s xs r -> Chain (parse_as e_Definition) r zs r' ->
  Chain (parse_as e_Definition) s (xs ++ zs) r'.
Proof. induction 1; cbn; intros; auto. econstructor; eauto. Qed.
Lemma Definitions_Chain s r xs : parse_as e_Definitions s = Ok r xs <->
  Chain (parse_as e_Definition) s xs r /\ Fails (parse_as e_Definition) r.
Proof. rewrite Definitions_exact, Chain_exact. reflexivity. Qed.
Lemma Definitions_total s : exists r xs, parse_as e_Definitions s = Ok r xs.
Proof. destruct (Vec_spec _ _ s I_Definition) as (l & r & E & _). exists r, l. exact E. Qed.

(** More text: go on where the rest begins. *)
Theorem Definitions_resume a b r xs : parse_as e_Definitions a = Ok r xs -> xs <> [] ->
  exists w r', r ++ b = w ++ r' /\ Blank w /\ NoBlank r' /\
  forall r'' zs, parse_as e_Definitions r' = Ok r'' zs -> parse_as e_Definitions (a ++ b) = Ok r'' (xs ++ zs).
Proof.
  intros H Hn. apply Definitions_exact in H as ((ts & HA & HC & HW) & _).
  destruct (Sentence_end _ _ _ HC Hn) as (init & ->). apply (Ats_more _ b) in HA as (w & r' & E & Hw & Hr & HA).
  exists w, r'. repeat split; auto. intros r'' zs H. apply Definitions_Chain in H as [H1 H2].
  apply Definitions_Chain. split; auto. eapply Chain_join; [|exact H1]. apply Chain_exact. eauto.
Qed.
(** Every definition that was read stays. *)
Theorem Definitions_monotone a b r xs r' ys : parse_as e_Definitions a = Ok r xs -> parse_as e_Definitions (a ++ b) = Ok r' ys ->
  exists zs, ys = xs ++ zs.
Proof.
  intros Ha Hb. destruct xs as [|x xs]. { exists ys. auto. }
  destruct (Definitions_resume a b _ _ Ha) as (w & r1 & _ & _ & _ & H); [discriminate|].
  destruct (Definitions_total r1) as (r2 & zs & E). apply H in E. rewrite E in Hb. injection Hb as _ <-. exists zs. auto.
Qed.
(** A beginning of an accepted text gives a beginning of its definitions, and the definitions that are missing come from the
    rest with the text that is missing. *)
Theorem parse_prefix a b ys : parse (a ++ b) = Parsed ys -> exists r xs zs,
  parse_as e_Definitions a = Ok r xs /\ ys = xs ++ zs /\ (zs = [] \/ parse (r ++ b) = Parsed zs).
Proof.
  intros H. apply parse_iff in H. destruct (Definitions_total a) as (r & xs & E).
  destruct xs as [|x xs].
  { exists r, [], ys. split; auto. split; auto. right. apply Definitions_Chain in E as [E _]. inversion E; subst.
    apply parse_iff. auto. }
  destruct (Definitions_resume a b _ _ E) as (w & r1 & E1 & Hw & Hr & K); [discriminate|].
  destruct (Definitions_total r1) as (r2 & zs & E2). pose proof (K _ _ E2) as E3. rewrite E3 in H. injection H as -> <-.
  exists r, (x :: xs), zs. split; auto. split; auto. destruct zs as [|z zs]; auto. right. rewrite E1.
  rewrite <- (app_nil_r (w ++ r1)), <- app_assoc. apply parse_blank_around; auto; try discriminate; try constructor.
  apply parse_iff. auto.
Qed.
