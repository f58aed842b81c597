(** * The lexical layer against the specification: numbers. *)
From Coq Require Import String Ascii NArith Arith Bool List Lia.
From Verif Require Import Nom Lex Spec LexFacts.
Import ListNotations.
Open Scope list_scope.
Ltac ulia := unfold text, char in *; lia.

(** [ends P r]: the first character of [r], if any, does not satisfy [P]. *)
Definition ends (P : char -> Prop) (r : text) : Prop := forall c r', r = c :: r' -> ~ P c.

Lemma take_while_P f P (H : forall c, f c = true <-> P c) i r v :
  take_while f i = Ok r v <-> i = v ++ r /\ Forall P v /\ ends P r.
Proof. rewrite take_while_ok, (forallb_Forall f P H), (stops_spec f P H). reflexivity. Qed.
Lemma take_while1_P f P (H : forall c, f c = true <-> P c) i r v :
  take_while1 f i = Ok r v <-> i = v ++ r /\ Forall P v /\ ends P r /\ v <> [].
Proof. rewrite take_while1_ok, (forallb_Forall f P H), (stops_spec f P H). reflexivity. Qed.
Lemma take_while1_P_err f P (H : forall c, f c = true <-> P c) i e : take_while1 f i = Err e -> ends P i.
Proof. intros E. refine (proj1 (stops_spec f P H i) _). apply take_while1_err. eauto. Qed.

Definition run_of (P : char -> Prop) (i w r : text) : Prop := i = w ++ r /\ Forall P w /\ ends P r.

(** Two ways to split off characters satisfying [P]: the shorter one is followed by one more of them. *)
Lemma split_le (P : char -> Prop) : forall u w (x r : text), u ++ x = w ++ r -> Forall P u -> ends P r ->
  exists z, w = u ++ z /\ x = z ++ r.
Proof.
  induction u as [|c u IH]; intros w x r E Hu Hr; [exists w; auto|].
  destruct w as [|d w].
  - cbn in E. inversion Hu; subst. edestruct Hr; eauto.
  - cbn in E. injection E as <- E. inversion Hu; subst. destruct (IH w x r E) as (z & -> & ->); auto.
    exists z. auto.
Qed.
Lemma split_eq (P : char -> Prop) u w (x r : text) : u ++ x = w ++ r -> Forall P u -> ends P x -> Forall P w ->
  ends P r -> u = w /\ x = r.
Proof.
  intros E Hu Hx Hw Hr. destruct (split_le P _ _ _ _ E Hu Hr) as (z & -> & ->).
  destruct z as [|c z].
  - rewrite app_nil_r. auto.
  - apply Forall_app in Hw as [_ Hw]. inversion Hw; subst. edestruct Hx; eauto. reflexivity.
Qed.

Lemma ends_cons (P : char -> Prop) c r : ~ P c -> ends P (c :: r).
Proof. intros H d r' [= <- <-]. auto. Qed.
Lemma ends_nil (P : char -> Prop) : ends P [].
Proof. intros d r'; discriminate. Qed.
Lemma ends_app (P : char -> Prop) x r : x <> [] -> ends P (x ++ r) -> ends P x.
Proof. intros Hx H c r' ->. eapply H. reflexivity. Qed.

(** ** The exponent *)
(** [Takes f P i o]: [o] is the result of taking the longest prefix of [i] in [P], or a plain error if there is none. *)
Inductive Takes {A} (f : text -> A) (P : text -> Prop) (i : text) : res text A -> Prop :=
| Takes_ok r s : Longest P i s r -> Takes f P i (Ok r (f s))
| Takes_err p k : (forall s r, i = s ++ r -> ~ P s) -> Takes f P i (Err (Error p k)).
Definition u_ (s : text) : unit := tt.

Lemma two_chars a b (i : text) : alt_or (pchar a) (alt_or (pchar b) alt_end) i =
  match i with
  | c :: r => if (N.eqb c a || N.eqb c b)%bool then Ok r c else Err (Error i KAlt)
  | [] => Err (Error i KAlt)
  end.
Proof.
  unfold alt_or, pchar, alt_end. destruct i as [|c r]; auto.
  destruct (N.eqb_spec c a) as [->|Ha]; cbn; auto. destruct (N.eqb_spec c b) as [->|Hb]; auto.
Qed.

Lemma exponent_cases i : Takes u_ ExpLex i (exponent i).
Proof.
  unfold exponent. chrs. unfold bind at 1. rewrite two_chars. destruct i as [|e i].
  { apply Takes_err. intros s r E (e & g & w & -> & _). discriminate. }
  destruct (N.eqb e 101 || N.eqb e 69) eqn:Ee.
  2:{ apply Takes_err. intros s r E (e' & g & w & -> & He & _). cbn in E. injection E as -> _.
      apply orb_false_iff in Ee as [E1 E2]. apply N.eqb_neq in E1. apply N.eqb_neq in E2. ulia. }
  assert (He : e = 69%N \/ e = 101%N).
  { apply orb_true_iff in Ee as [E|E]; apply N.eqb_eq in E; auto. }
  unfold bind at 1, opt. rewrite two_chars.
  assert (Hd : forall g j, (g = [] \/ g = [43%N] \/ g = [45%N]) -> i = g ++ j ->
    (g = [] -> forall c k, j = c :: k -> c <> 43%N /\ c <> 45%N) ->
    Takes u_ ExpLex (e :: i) ((take_while1 is_ascii_digit ;;; ret tt) j)).
  { intros g j Hg -> Hgj.
    assert (Hu : forall g' w' r', g ++ j = g' ++ w' ++ r' -> (g' = [] \/ g' = [43%N] \/ g' = [45%N]) -> w' <> [] ->
                 Forall digit w' -> g' = g /\ j = w' ++ r').
    { intros g' w' r' E Hg' Hw' Hd'. destruct w' as [|c w']; [congruence|]. inversion Hd'; subst. unfold digit in *.
      destruct Hg as [-> |[-> | ->]], Hg' as [-> |[-> | ->]]; cbn in E; try (split; [reflexivity|first [exact E|injection E as E; exact E]]);
        try (injection E as E _; ulia); try discriminate.
      - destruct (Hgj eq_refl _ _ E). congruence.
      - destruct (Hgj eq_refl _ _ E). congruence. }
    unfold bind, ret. destruct (take_while1 is_ascii_digit j) as [r w|[]|] eqn:E.
    - apply (take_while1_P _ _ is_digit_spec) in E as (-> & Hw & Hr & Hn).
      apply (Takes_ok u_ _ _ _ (e :: g ++ w)). split; [|split].
      + cbn. rewrite <- app_assoc. reflexivity.
      + exists e, g, w. auto 10.
      + intros s' r' E (e' & g' & w' & -> & _ & Hg' & Hw' & Hd'). cbn in E. injection E as _ E.
        rewrite <- app_assoc in E. destruct (Hu _ _ _ E) as (-> & Ej); auto.
        symmetry in Ej. destruct (split_le digit _ _ _ _ Ej) as (z & -> & _); auto.
        cbn. rewrite !app_length. ulia.
    - apply Takes_err. intros s r E' (e' & g' & w' & -> & _ & Hg' & Hw' & Hd'). cbn in E'. injection E' as _ E'.
      rewrite <- app_assoc in E'. destruct (Hu _ _ _ E') as (-> & Ej); auto.
      apply (take_while1_P_err _ _ is_digit_spec) in E. destruct w' as [|c w']; [congruence|].
      inversion Hd'; subst. eapply E; eauto. reflexivity.
    - unfold take_while1 in E. destruct (span _ _) as [[] ?]; discriminate.
    - unfold take_while1 in E. destruct (span _ _) as [[] ?]; discriminate.
    - unfold take_while1 in E. destruct (span _ _) as [[] ?]; discriminate. }
  destruct i as [|c i].
  { apply (Hd [] []); auto. intros _ c k; discriminate. }
  destruct (N.eqb c 43 || N.eqb c 45) eqn:Ec.
  - apply (Hd [c] i); auto.
    + apply orb_true_iff in Ec as [E|E]; apply N.eqb_eq in E; subst; auto.
    + intros; discriminate.
  - apply (Hd [] (c :: i)); auto. intros _ c' k [= <- <-].
    apply orb_false_iff in Ec as [E1 E2]. apply N.eqb_neq in E1. apply N.eqb_neq in E2. auto.
Qed.

(** ** Floating point numbers *)
Definition float_body : parser text unit :=
  alt_or
      (alt_or (take_while1 is_ascii_digit ;;; pchar (chr ".") ;;; take_while is_ascii_digit ;;; ret tt)
      (alt_or (take_while is_ascii_digit ;;; pchar (chr ".") ;;; take_while1 is_ascii_digit ;;; ret tt)
       alt_end) ;;;
       opt exponent ;;; ret tt)
   (alt_or
      (take_while1 is_ascii_digit ;;; exponent)
    alt_end).

Lemma digits_split i : exists w r, i = w ++ r /\ Forall digit w /\ ends digit r /\
  take_while is_ascii_digit i = Ok r w /\
  take_while1 is_ascii_digit i = match w with [] => Err (Error i KTakeWhile1) | _ => Ok r w end.
Proof.
  destruct (take_while is_ascii_digit i) as [r w| |] eqn:E.
  - exists w, r. pose proof E as E'. apply (take_while_P _ _ is_digit_spec) in E' as (-> & H1 & H2). repeat split; auto.
    unfold take_while in E. unfold take_while1. destruct (span is_ascii_digit (w ++ r)) as [a b]. injection E as -> ->. auto.
  - unfold take_while in E. destruct (span _ _); discriminate.
  - unfold take_while in E. destruct (span _ _); discriminate.
Qed.

Lemma not_digit_dot : ~ digit 46%N. Proof. unfold digit. ulia. Qed.
Lemma ExpLex_head s : ExpLex s -> exists c x, s = c :: x /\ (c = 69%N \/ c = 101%N).
Proof. intros (e & g & w & -> & H & _). eauto. Qed.
Lemma ExpLex_not_digit s r : ExpLex s -> ends digit (s ++ r).
Proof. intros H. apply ExpLex_head in H as (c & x & -> & H). apply ends_cons. unfold digit. ulia. Qed.
Lemma ExpLex_nonempty s : ExpLex s -> s <> [].
Proof. intros H. apply ExpLex_head in H as (c & x & -> & H). discriminate. Qed.

Lemma float_body_cases i : Takes u_ FloatBody i (float_body i).
Proof.
  destruct (digits_split i) as (w1 & i1 & Ei & Hw1 & Hi1 & E1 & E1').
  (* any float at the front begins with exactly these digits *)
  assert (Hdot : forall u x, i = u ++ 46%N :: x -> Forall digit u -> u = w1 /\ i1 = 46%N :: x).
  { intros u x E Hu. rewrite Ei in E. symmetry in E. apply (split_eq digit) in E; intuition auto.
    apply ends_cons, not_digit_dot. }
  assert (Hexp : forall u x y, i = u ++ x ++ y -> Forall digit u -> ExpLex x -> u = w1 /\ i1 = x ++ y).
  { intros u x y E Hu Hx. rewrite Ei in E. symmetry in E. apply (split_eq digit) in E; intuition auto.
    apply ExpLex_not_digit; auto. }
  assert (Hnodot : (forall x, i1 <> 46%N :: x) ->
    Takes u_ FloatBody i (alt_or (take_while1 is_ascii_digit ;;; exponent) alt_end i)).
  { intros Hn. unfold alt_or, bind, alt_end. rewrite E1'. destruct w1 as [|c w1].
    - apply Takes_err. intros s r E [(u1 & u2 & x & -> & H1 & H2 & H3 & H4)|(u & x & -> & H1 & H2 & H3)].
      + rewrite <- app_assoc in E. cbn in E. destruct (Hdot _ _ E); auto. eapply Hn; eauto.
      + rewrite <- app_assoc in E. destruct (Hexp _ _ _ E) as [-> _]; auto.
    - destruct (exponent_cases i1) as [r s (Es & Hs & Hl)|p k Hno].
      + apply (Takes_ok u_ _ _ _ ((c :: w1) ++ s)). split; [|split].
        * rewrite Ei, Es, app_assoc. reflexivity.
        * right. exists (c :: w1), s. repeat split; auto. discriminate.
        * intros s' r' E [(u1 & u2 & x & -> & H1 & H2 & H3 & H4)|(u & x & -> & H1 & H2 & H3)].
          -- rewrite <- app_assoc in E. cbn in E. destruct (Hdot _ _ E); auto. edestruct Hn; eauto.
          -- rewrite <- app_assoc in E. destruct (Hexp _ _ _ E) as [-> Ex]; auto.
             specialize (Hl _ _ Ex H3). rewrite !app_length. ulia.
      + apply Takes_err.
        intros s' r' E [(u1 & u2 & x & -> & H1 & H2 & H3 & H4)|(u & x & -> & H1 & H2 & H3)].
        * rewrite <- app_assoc in E. cbn in E. destruct (Hdot _ _ E); auto. edestruct Hn; eauto.
        * rewrite <- app_assoc in E. destruct (Hexp _ _ _ E) as [-> Ex]; auto. edestruct Hno; eauto. }
  destruct i1 as [|d i2].
  { (* only digits *)
    unfold float_body. unfold alt_or at 1. unfold bind at 1. unfold alt_or at 1.
    unfold bind at 1. rewrite E1'. assert (Hn : forall x, @nil N <> 46%N :: x) by discriminate.
    specialize (Hnodot Hn). destruct w1.
    - unfold alt_or at 1. unfold bind at 1. rewrite E1. cbn. exact Hnodot.
    - unfold bind at 1. cbn [pchar]. unfold alt_or at 1. unfold bind at 1. rewrite E1. cbn. exact Hnodot. }
  destruct (N.eqb d 46) eqn:Ed.
  2:{ (* no dot after the digits *)
    assert (Hd46 : d <> 46%N) by (apply N.eqb_neq; auto).
    assert (Ep : pchar (chr ".") (d :: i2) = Err (Error (d :: i2) KChar)).
    { unfold pchar. chrs. rewrite Ed. reflexivity. }
    unfold float_body. unfold alt_or at 1. unfold bind at 1. unfold alt_or at 1.
    unfold bind at 1. rewrite E1'. assert (Hn : forall x, d :: i2 <> 46%N :: x) by (intros x Ex; congruence).
    specialize (Hnodot Hn). destruct w1.
    - unfold alt_or at 1. unfold bind at 1. rewrite E1. unfold bind at 1. rewrite Ep. cbn. exact Hnodot.
    - unfold bind at 1. rewrite Ep. unfold alt_or at 1. unfold bind at 1. rewrite E1.
      unfold bind at 1. rewrite Ep. cbn. exact Hnodot. }
  apply N.eqb_eq in Ed. subst d. clear Hnodot.
  destruct (digits_split i2) as (w2 & i3 & Ei2 & Hw2 & Hi3 & E2 & E2').
  assert (Hdot2 : forall u1 u2 x y, i = (u1 ++ 46%N :: u2 ++ x) ++ y -> Forall digit u1 -> Forall digit u2 ->
     (x = [] \/ ExpLex x) -> u1 = w1 /\ exists z, w2 = u2 ++ z /\ x ++ y = z ++ i3).
  { intros u1 u2 x y E H1 H2 H3. rewrite <- app_assoc in E. cbn in E. rewrite <- app_assoc in E.
    destruct (Hdot _ _ E) as [-> E']; auto. split; auto. injection E' as E'. rewrite Ei2 in E'. symmetry in E'.
    destruct (split_le digit _ _ _ _ E') as (z & Ez & Ex); auto. exists z. auto. }
  assert (Hno2 : forall u x y, i = (u ++ x) ++ y -> Forall digit u -> ExpLex x -> False).
  { intros u x y E Hu Hx. rewrite <- app_assoc in E. destruct (Hexp _ _ _ E) as [-> Ex]; auto.
    apply ExpLex_head in Hx as (c & x' & -> & Hc). cbn in Ex. injection Ex as <- _. ulia. }
  assert (Hmain : (w1 <> [] \/ w2 <> []) -> exists r s, (opt exponent ;;; ret tt) i3 = Ok r tt /\ Longest FloatBody i s r).
  { intros Hne. unfold bind, opt, ret.
    destruct (exponent_cases i3) as [r s (Es & Hs & Hl)|p k Hno].
    - exists r, (w1 ++ 46%N :: w2 ++ s). split; auto. split; [|split].
      + rewrite Ei, Ei2, Es, <- !app_assoc. cbn. rewrite <- !app_assoc. reflexivity.
      + left. exists w1, w2, s. auto 10.
      + intros s' r' E [(u1 & u2 & x & -> & H1 & H2 & H3 & H4)|(u & x & -> & H1 & H2 & H3)].
        * destruct (Hdot2 _ _ _ _ E) as (-> & z & -> & Ex); auto.
          destruct H4 as [-> |H4].
          -- rewrite !app_length. cbn. rewrite !app_length. cbn. ulia.
          -- (* the exponent starts right after the digits *)
             destruct z as [|c z].
             ++ cbn in Ex. rewrite app_nil_r. symmetry in Ex. specialize (Hl _ _ Ex H4).
                rewrite !app_length. cbn. rewrite !app_length. ulia.
             ++ exfalso. apply Forall_app in Hw2 as [_ Hz]. inversion Hz; subst.
                apply ExpLex_head in H4 as (c' & x' & -> & Hc). cbn in Ex. injection Ex as <- _.
                unfold digit in *. ulia.
        * edestruct Hno2; eauto.
    - exists i3, (w1 ++ 46%N :: w2). split; auto. split; [|split].
      + rewrite Ei, Ei2, <- !app_assoc. reflexivity.
      + left. exists w1, w2, []. rewrite app_nil_r. auto 10.
      + intros s' r' E [(u1 & u2 & x & -> & H1 & H2 & H3 & H4)|(u & x & -> & H1 & H2 & H3)].
        * destruct (Hdot2 _ _ _ _ E) as (-> & z & -> & Ex); auto.
          destruct H4 as [-> |H4].
          -- rewrite !app_length. cbn. rewrite !app_length. cbn. ulia.
          -- destruct z as [|c z].
             ++ cbn in Ex. symmetry in Ex. edestruct Hno; eauto.
             ++ exfalso. apply Forall_app in Hw2 as [_ Hz]. inversion Hz; subst.
                apply ExpLex_head in H4 as (c' & x' & -> & Hc). cbn in Ex. injection Ex as <- _.
                unfold digit in *. ulia.
        * edestruct Hno2; eauto. }
  assert (Ep : pchar (chr ".") (46%N :: i2) = Ok i2 46%N) by reflexivity.
  unfold float_body, alt_or, bind, ret, alt_end. unfold text, char in *. rewrite E1'.
  destruct w1 as [|c w1].
  - cbn beta iota. rewrite E1. cbn beta iota. rewrite Ep. cbn beta iota. rewrite E2'. destruct w2 as [|c2 w2].
    + (* a lonely dot *)
      apply Takes_err.
      intros s r E [(u1 & u2 & x & -> & H1 & H2 & H3 & H4)|(u & x & -> & H1 & H2 & H3)].
      * destruct (Hdot2 _ _ _ _ E) as (-> & z & E0 & Ex); auto. destruct u2; [|discriminate]. intuition.
      * eapply Hno2; eauto.
    + destruct Hmain as (r & s & E & Hl). right; discriminate.
      unfold bind, ret in E. rewrite E. apply (Takes_ok u_ _ _ _ s); auto.
  - destruct Hmain as (r & s & E & Hl). left; discriminate.
    cbn beta iota. rewrite Ep. cbn beta iota. rewrite E2. unfold bind, ret in E. rewrite E.
    apply (Takes_ok u_ _ _ _ s); auto.
Qed.

(** With the sign. *)
Definition sign (p : parser text unit) : parser text unit := opt (pchar (chr "-")) ;;; p.
Definition signed (P : text -> Prop) (s : text) : Prop := exists m b, s = m ++ b /\ Sign m /\ P b.

Lemma sign_cases (p : parser text unit) (P : text -> Prop) :
  (forall s, P s -> s <> [] /\ forall x, s <> 45%N :: x) ->
  (forall i, Takes u_ P i (p i)) -> forall i, Takes u_ (signed P) i (sign p i).
Proof.
  intros HP Hp i. unfold sign, bind, opt. chrs.
  destruct i as [|c i].
  { cbn [pchar]. destruct (Hp []) as [r s (Es & Hs & _)|q k Hno].
    - destruct s; [|discriminate]. apply HP in Hs as [[] _]. reflexivity.
    - apply Takes_err. intros s r E (m & b & -> & Hm & Hb). destruct m; [|discriminate].
      apply (Hno _ _ E Hb). }
  unfold pchar. destruct (N.eqb_spec c 45) as [->|Hc].
  - destruct (Hp i) as [r s (Es & Hs & Hl)|q k Hno].
    + apply (Takes_ok u_ _ _ _ (45%N :: s)). split; [|split].
      * cbn. congruence.
      * exists [45%N], s. repeat split; auto. right; auto.
      * intros s' r' E (m & b & -> & [->| ->] & Hb).
        -- cbn in *. destruct (HP _ Hb) as [H1 H2]. destruct b; [congruence|]. cbn in E. injection E as <- _. edestruct H2; eauto.
        -- cbn in *. injection E as E. specialize (Hl _ _ E Hb). ulia.
    + apply Takes_err. intros s' r' E (m & b & -> & [->| ->] & Hb).
      * cbn in *. destruct (HP _ Hb) as [H1 H2]. destruct b; [congruence|]. cbn in E. injection E as <- _. edestruct H2; eauto.
      * cbn in *. injection E as E. eapply Hno; eauto.
  - destruct (Hp (c :: i)) as [r s (Es & Hs & Hl)|q k Hno].
    + apply (Takes_ok u_ _ _ _ s). split; [|split]; auto.
      * exists [], s. repeat split; auto. left; auto.
      * intros s' r' E (m & b & -> & [->| ->] & Hb).
        -- cbn in *. eauto.
        -- cbn in *. congruence.
    + apply Takes_err. intros s' r' E (m & b & -> & [->| ->] & Hb).
      * cbn in *. eapply Hno; eauto.
      * cbn in *. congruence.
Qed.

(** Integers. *)
Definition DecBody (s : text) := exists d w, s = d :: w /\ (49 <= d <= 57)%N /\ Forall digit w.
Definition HexBody (s : text) := exists x w, s = 48%N :: x :: w /\ (x = 88%N \/ x = 120%N) /\ Forall hexdigit w.
Definition OctBody (s : text) := exists w, s = 48%N :: w /\ Forall octdigit w.

Definition dec_body : parser text unit := one_of (str "123456789") ;;; take_while is_ascii_digit ;;; ret tt.
Definition hex_body : parser text unit :=
  pchar (chr "0") ;;; alt_or (pchar (chr "x")) (alt_or (pchar (chr "X")) alt_end) ;;; take_while is_ascii_hexdigit ;;; ret tt.
Definition oct_body : parser text unit := pchar (chr "0") ;;; take_while (in_range "0" "7") ;;; ret tt.

Lemma take_while_total f i : exists w r, take_while f i = Ok r w.
Proof. unfold take_while. destruct (span f i). eauto. Qed.

Lemma dec_body_cases i : Takes u_ DecBody i (dec_body i).
Proof.
  unfold dec_body, bind, one_of. destruct i as [|c i].
  { apply Takes_err. intros s r E (d & w & -> & _). discriminate. }
  assert (Hc : existsb (N.eqb c) (str "123456789") = true <-> (49 <= c <= 57)%N).
  { rewrite existsb_exists. split.
    - intros (x & Hx & E). apply N.eqb_eq in E. subst. cbn in Hx. ulia.
    - intros H. exists c. split; [|apply N.eqb_refl]. cbn.
      assert (c = 49 \/ c = 50 \/ c = 51 \/ c = 52 \/ c = 53 \/ c = 54 \/ c = 55 \/ c = 56 \/ c = 57)%N by ulia. intuition. }
  destruct (existsb (N.eqb c) (str "123456789")) eqn:Ec.
  - apply proj1 in Hc. specialize (Hc eq_refl). destruct (take_while_total is_ascii_digit i) as (w & r & E).
    rewrite E. apply (Takes_ok u_ _ _ _ (c :: w)). apply (take_while_P _ _ is_digit_spec) in E as (-> & Hw & Hr).
    split; [|split]; auto.
    + exists c, w. auto.
    + intros s' r' E (d & w' & -> & _ & Hw'). cbn in E. injection E as <- E. symmetry in E.
      destruct (split_le digit _ _ _ _ E) as (z & -> & _); auto. cbn. rewrite app_length. ulia.
  - apply Takes_err. intros s r E (d & w & -> & Hd & _). cbn in E. injection E as -> _. apply Hc in Hd. discriminate.
Qed.
Lemma hex_body_cases i : Takes u_ HexBody i (hex_body i).
Proof.
  unfold hex_body, bind, pchar at 1. chrs. destruct i as [|c i].
  { apply Takes_err. intros s r E (d & w & -> & _). discriminate. }
  destruct (N.eqb_spec c 48) as [->|Hc].
  2:{ apply Takes_err. intros s r E (d & w & -> & _). cbn in E. congruence. }
  rewrite two_chars. destruct i as [|x i].
  { apply Takes_err. intros s r E (d & w & -> & _). discriminate. }
  destruct (N.eqb x 120 || N.eqb x 88) eqn:Ex.
  - assert (Hx : x = 88%N \/ x = 120%N). { apply orb_true_iff in Ex as [E|E]; apply N.eqb_eq in E; auto. }
    destruct (take_while_total is_ascii_hexdigit i) as (w & r & E).
    rewrite E. apply (Takes_ok u_ _ _ _ (48%N :: x :: w)). apply (take_while_P _ _ is_hexdigit_spec) in E as (-> & Hw & Hr).
    split; [|split]; auto.
    + exists x, w. auto.
    + intros s' r' E (d & w' & -> & _ & Hw'). cbn in E. injection E as <- E. symmetry in E.
      destruct (split_le hexdigit _ _ _ _ E) as (z & -> & _); auto. cbn. rewrite app_length. ulia.
  - apply Takes_err. intros s r E (d & w & -> & Hd & _). cbn in E. injection E as -> _.
    apply orb_false_iff in Ex as [E1 E2]. apply N.eqb_neq in E1. apply N.eqb_neq in E2. ulia.
Qed.
Lemma oct_body_cases i : Takes u_ OctBody i (oct_body i).
Proof.
  unfold oct_body, bind, pchar at 1. chrs. destruct i as [|c i].
  { apply Takes_err. intros s r E (d & -> & _). discriminate. }
  destruct (N.eqb_spec c 48) as [->|Hc].
  2:{ apply Takes_err. intros s r E (d & -> & _). cbn in E. congruence. }
  destruct (take_while_total (in_range "0" "7") i) as (w & r & E).
  rewrite E. apply (Takes_ok u_ _ _ _ (48%N :: w)). apply (take_while_P _ _ is_octdigit_spec) in E as (-> & Hw & Hr).
  split; [|split]; auto.
  - exists w. auto.
  - intros s' r' E (w' & -> & Hw'). cbn in E. injection E as E. symmetry in E.
    destruct (split_le octdigit _ _ _ _ E) as (z & -> & _); auto. cbn. rewrite app_length. ulia.
Qed.

Lemma FloatBody_head s : FloatBody s -> exists c x, s = c :: x /\ (digit c \/ c = 46%N).
Proof.
  intros [(w1 & w2 & x & -> & H1 & _)|(w & x & -> & Hn & H1 & _)].
  - destruct w1 as [|c w1]; cbn; [eauto|]. inversion H1; subst. eauto.
  - destruct w as [|c w]; [congruence|]. cbn. inversion H1; subst. eauto.
Qed.
Lemma no_sign (P : text -> Prop) s : (exists c x, s = c :: x /\ (digit c \/ c = 46%N)) -> P s -> s <> [] /\ forall x, s <> 45%N :: x.
Proof. intros (c & x & -> & H) _. split; [discriminate|]. intros y [= -> _]. unfold digit in H. ulia. Qed.

Lemma signed_float s : signed FloatBody s <-> FloatLex s.
Proof. reflexivity. Qed.
Lemma signed_dec s : signed DecBody s <-> DecLex s.
Proof.
  split.
  - intros (m & b & -> & Hm & d & w & -> & H). exists m, d, w. auto.
  - intros (m & d & w & -> & Hm & H). exists m, (d :: w). repeat split; auto. exists d, w. auto.
Qed.
Lemma signed_hex s : signed HexBody s <-> HexLex s.
Proof.
  split.
  - intros (m & b & -> & Hm & d & w & -> & H). exists m, d, w. auto.
  - intros (m & d & w & -> & Hm & H). exists m, (48%N :: d :: w). repeat split; auto. exists d, w. auto.
Qed.
Lemma signed_oct s : signed OctBody s <-> OctLex s.
Proof.
  split.
  - intros (m & b & -> & Hm & w & -> & H). exists m, w. auto.
  - intros (m & w & -> & Hm & H). exists m, (48%N :: w). repeat split; auto. exists w. auto.
Qed.

Lemma Longest_ext (P Q : text -> Prop) i s r : (forall s, P s <-> Q s) -> Longest P i s r -> Longest Q i s r.
Proof. intros H (E & H1 & H2). split; auto. split; [apply H; auto|]. intros s' r' E' H'. eapply H2; eauto. apply H; auto. Qed.
Lemma Longest_unique P i s r s' r' : Longest P i s r -> Longest P i s' r' -> s = s' /\ r = r'.
Proof.
  intros (E & H1 & H2) (E' & H1' & H2'). pose proof (H2 _ _ E' H1'). pose proof (H2' _ _ E H1).
  assert (Hl : length s = length s') by ulia. rewrite E in E'. clear -Hl E'.
  revert s' Hl E'. induction s as [|c s IH]; intros [|c' s'] Hl E'; cbn in *; try ulia; auto.
  injection E' as -> E'. destruct (IH s') as [-> ->]; auto.
Qed.

Lemma num_cases p body (P Q : text -> Prop) (Hs : forall s, signed P s <-> Q s)
  (Hh : forall s, P s -> exists c x, s = c :: x /\ (digit c \/ c = 46%N))
  (Hp : p = sign body)
  (Hc : forall i, Takes u_ P i (body i)) i : Takes id Q i (recognize p i).
Proof.
  subst p. unfold recognize. destruct (sign_cases body P) with (i := i) as [r s Hl|q k Hno]; auto.
  - intros s H. apply (no_sign P); auto.
  - pose proof Hl as (Ei & _). rewrite Ei, firstn_app_len. rewrite <- Ei. apply (Takes_ok id).
    eapply Longest_ext; eauto.
  - apply Takes_err. intros s r Ei HQ. apply Hs in HQ. eapply Hno; eauto.
Qed.

Lemma DecBody_head s : DecBody s -> exists c x, s = c :: x /\ (digit c \/ c = 46%N).
Proof. intros (d & w & -> & H & _). exists d, w. split; auto. left. unfold digit. ulia. Qed.
Lemma HexBody_head s : HexBody s -> exists c x, s = c :: x /\ (digit c \/ c = 46%N).
Proof. intros (d & w & -> & H & _). do 2 eexists. split; eauto. left. unfold digit. ulia. Qed.
Lemma OctBody_head s : OctBody s -> exists c x, s = c :: x /\ (digit c \/ c = 46%N).
Proof. intros (w & -> & H). do 2 eexists. split; eauto. left. unfold digit. ulia. Qed.

(** What the number parsers do: take the longest lexeme of their kind. *)
Lemma NumLex_head s : NumLex s -> exists c x, s = c :: x /\ (digit c \/ c = 46%N \/ c = 45%N).
Proof.
  assert (H : forall P : text -> Prop, (forall s, P s -> exists c x, s = c :: x /\ (digit c \/ c = 46%N)) -> forall s, signed P s ->
    exists c x, s = c :: x /\ (digit c \/ c = 46%N \/ c = 45%N)).
  { intros P HP s0 (m & b & -> & [->| ->] & Hb); cbn.
    - apply HP in Hb as (c & x & -> & Hc). exists c, x. tauto.
    - exists 45%N, b. auto. }
  intros [H'|[H'|[H'|H']]].
  - apply (H FloatBody); auto. apply FloatBody_head.
  - apply (H DecBody); auto. apply DecBody_head. apply signed_dec; auto.
  - apply (H HexBody); auto. apply HexBody_head. apply signed_hex; auto.
  - apply (H OctBody); auto. apply OctBody_head. apply signed_oct; auto.
Qed.

Lemma NumLex_NoBlank s r : NumLex s -> NoBlank (s ++ r).
Proof.
  intros H. apply NumLex_head in H as (c & x & -> & H). apply NoBlank_head; unfold blank_char, digit in *; ulia.
Qed.

Section WsNum.
  Variable p : parser text text.
  Variable Q : text -> Prop.
  Hypothesis HQ : forall s, Q s -> NumLex s.
  Hypothesis Hp : forall i, Takes id Q i (p i).

  Lemma ws_num i r s : ws p i = Ok r s <->
    exists w w', i = w ++ s ++ w' ++ r /\ Blank w /\ Longest Q (s ++ w' ++ r) s (w' ++ r) /\ Blank w' /\ NoBlank r.
  Proof.
    rewrite ws_ok. split.
    - intros (w & i0 & w' & r0 & -> & Hw & Hi0 & E & -> & Hw' & Hr).
      pose proof (Hp i0) as H. rewrite E in H. inversion H as [r1 s1 Hl|]; subst. pose proof Hl as (-> & _). exists w, w'. auto 10.
    - intros (w & w' & -> & Hw & Hl & Hw' & Hr). exists w, (s ++ w' ++ r), w', (w' ++ r). repeat split; auto.
      + apply NumLex_NoBlank. apply HQ. apply Hl.
      + destruct (Hp (s ++ w' ++ r)) as [r1 s1 Hl'|q k Hno].
        * destruct (Longest_unique _ _ _ _ _ _ Hl Hl') as [-> <-]. reflexivity.
        * edestruct Hno; eauto. apply Hl.
  Qed.
  Lemma ws_num_err i : ~ (exists r s, ws p i = Ok r s) -> exists q k, ws p i = Err (Error q k).
  Proof.
    intros H. destruct (ws_cases p i) as (w & i0 & -> & Hw & Hi0 & Hc).
    destruct (Hp i0) as [r1 s1 Hl|q k Hno].
    - destruct Hc as (w' & r & _ & _ & _ & E). edestruct H; eauto.
    - eauto.
  Qed.
  Lemma ws_num_no i w s r : (exists q k, ws p i = Err (Error q k)) -> i = w ++ s ++ r -> Blank w -> Q s -> False.
  Proof.
    intros (q & k & E) -> Hw Hs. destruct (ws_cases p (w ++ s ++ r)) as (w1 & i0 & Ei & Hw1 & Hi0 & Hc).
    destruct (Blank_unique _ Hw _ _ _ Hw1 (NumLex_NoBlank _ _ (HQ _ Hs)) Hi0 Ei) as [<- <-].
    destruct (Hp (s ++ r)) as [r1 s1 Hl|q' k' Hno].
    - destruct Hc as (w' & r2 & _ & _ & _ & E'). congruence.
    - eapply Hno; eauto.
  Qed.
End WsNum.

Lemma float_num i : Takes id FloatLex i (recognize (opt (pchar (chr "-")) ;;; float_body ;;; ret tt) i).
Proof.
  apply num_cases with (P := FloatBody) (body := float_body ;;; ret tt).
  - apply signed_float.
  - apply FloatBody_head.
  - reflexivity.
  - intros j. unfold bind, ret. destruct (float_body_cases j) as [r s H|q k H].
    + apply (Takes_ok u_ _ _ _ s); auto.
    + apply Takes_err; auto.
Qed.
Lemma dec_num i : Takes id DecLex i (recognize (opt (pchar (chr "-")) ;;; dec_body) i).
Proof. eapply num_cases; eauto using signed_dec, DecBody_head, dec_body_cases. reflexivity. Qed.
Lemma hex_num i : Takes id HexLex i (recognize (opt (pchar (chr "-")) ;;; hex_body) i).
Proof. eapply num_cases; eauto using signed_hex, HexBody_head, hex_body_cases. reflexivity. Qed.
Lemma oct_num i : Takes id OctLex i (recognize (opt (pchar (chr "-")) ;;; oct_body) i).
Proof. eapply num_cases; eauto using signed_oct, OctBody_head, oct_body_cases. reflexivity. Qed.

Lemma p_FloatValueLit_longest i r s : p_FloatValueLit i = Ok r s <->
  exists w w', i = w ++ s ++ w' ++ r /\ Blank w /\ Longest FloatLex (s ++ w' ++ r) s (w' ++ r) /\ Blank w' /\ NoBlank r.
Proof. apply (ws_num _ FloatLex (fun s H => or_introl H) float_num). Qed.
Lemma p_DecLit_longest i r s : p_DecLit i = Ok r s <->
  exists w w', i = w ++ s ++ w' ++ r /\ Blank w /\ Longest DecLex (s ++ w' ++ r) s (w' ++ r) /\ Blank w' /\ NoBlank r.
Proof. apply (ws_num _ DecLex (fun s H => or_intror (or_introl H)) dec_num). Qed.
Lemma p_HexLit_longest i r s : p_HexLit i = Ok r s <->
  exists w w', i = w ++ s ++ w' ++ r /\ Blank w /\ Longest HexLex (s ++ w' ++ r) s (w' ++ r) /\ Blank w' /\ NoBlank r.
Proof. apply (ws_num _ HexLex (fun s H => or_intror (or_intror (or_introl H))) hex_num). Qed.
Lemma p_OctLit_longest i r s : p_OctLit i = Ok r s <->
  exists w w', i = w ++ s ++ w' ++ r /\ Blank w /\ Longest OctLex (s ++ w' ++ r) s (w' ++ r) /\ Blank w' /\ NoBlank r.
Proof. apply (ws_num _ OctLex (fun s H => or_intror (or_intror (or_intror H))) oct_num). Qed.
