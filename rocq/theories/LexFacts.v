(** * The lexical layer against the specification: blanks, words, identifiers, strings. *)
From Coq Require Import String Ascii NArith Arith Bool List Lia.
From Verif Require Import Nom Lex Spec.
Import ListNotations.
Open Scope list_scope.

(** ** Characters *)
Lemma in_range_spec lo hi c : in_range lo hi c = true <-> (chr lo <= c <= chr hi)%N.
Proof. unfold in_range. rewrite andb_true_iff, !N.leb_le. tauto. Qed.

Ltac chrs := change (chr "0") with 48%N in *; change (chr "9") with 57%N in *; change (chr "A") with 65%N in *;
  change (chr "Z") with 90%N in *; change (chr "a") with 97%N in *; change (chr "z") with 122%N in *;
  change (chr "F") with 70%N in *; change (chr "f") with 102%N in *; change (chr "7") with 55%N in *;
  change (chr "_") with 95%N in *; change (chr "-") with 45%N in *; change (chr " ") with 32%N in *;
  change (chr "x") with 120%N in *; change (chr "X") with 88%N in *; change (chr "e") with 101%N in *;
  change (chr "E") with 69%N in *; change (chr "+") with 43%N in *; change (chr ".") with 46%N in *;
  change (chr """") with 34%N in *.

Lemma is_digit_spec c : is_ascii_digit c = true <-> digit c.
Proof. unfold is_ascii_digit. rewrite in_range_spec. chrs. reflexivity. Qed.
Lemma is_octdigit_spec c : in_range "0" "7" c = true <-> octdigit c.
Proof. rewrite in_range_spec. chrs. reflexivity. Qed.
Lemma is_letter_spec c : is_ascii_alphabetic c = true <-> letter c.
Proof. unfold is_ascii_alphabetic. rewrite orb_true_iff, !in_range_spec. chrs. reflexivity. Qed.
Lemma is_hexdigit_spec c : is_ascii_hexdigit c = true <-> hexdigit c.
Proof.
  unfold is_ascii_hexdigit. rewrite !orb_true_iff, !in_range_spec, is_digit_spec. chrs.
  unfold hexdigit, digit. tauto.
Qed.
Lemma is_ident_char_spec c : is_ident_char c = true <-> name_char c.
Proof.
  unfold is_ident_char, is_ascii_alphanumeric. rewrite !orb_true_iff, is_letter_spec, is_digit_spec, !N.eqb_eq. chrs.
  unfold name_char. tauto.
Qed.
Lemma is_ws_spec c : is_ws c = true <-> blank_char c.
Proof. unfold is_ws, blank_char. rewrite !orb_true_iff, !N.eqb_eq. chrs. tauto. Qed.

(** The byte test of [ident_tag!] is the test on characters. *)
Lemma first_byte_spec c :
  is_alphanumeric (first_byte c) || N.eqb (first_byte c) (chr "_") || N.eqb (first_byte c) (chr "-") = true
  <-> name_char c.
Proof.
  unfold is_alphanumeric. rewrite !orb_true_iff, !in_range_spec, !N.eqb_eq. chrs.
  unfold first_byte, name_char, letter, digit.
  destruct (N.ltb_spec c 128); [lia|].
  assert (128 <= c)%N by lia.
  destruct (N.ltb_spec c 2048); [|destruct (N.ltb_spec c 65536)].
  - generalize (c / 64)%N. intros. lia.
  - generalize (c / 4096)%N. intros. lia.
  - generalize (c / 262144)%N. intros. lia.
Qed.

(** ** Text primitives *)
Lemma text_eqb_spec a b : text_eqb a b = true <-> a = b.
Proof.
  revert b. induction a as [|x a IH]; intros [|y b]; cbn; split; try congruence; intros H.
  - apply andb_true_iff in H as [H1 H2]. apply N.eqb_eq in H1. apply IH in H2. congruence.
  - injection H as -> ->. rewrite N.eqb_refl. apply IH. reflexivity.
Qed.
Lemma text_eqb_refl a : text_eqb a a = true.
Proof. apply text_eqb_spec. reflexivity. Qed.
Lemma text_eqb_false a b : text_eqb a b = false <-> a <> b.
Proof. rewrite <- text_eqb_spec. destruct (text_eqb a b); split; congruence. Qed.

Lemma strip_prefix_spec t : forall i r, strip_prefix t i = Some r <-> i = t ++ r.
Proof.
  induction t as [|x t IH]; intros i r; cbn; [split; congruence|].
  destruct i as [|y i]; [split; discriminate|].
  destruct (N.eqb_spec x y) as [->|H].
  - rewrite IH. split; congruence.
  - split; [discriminate|]. congruence.
Qed.
Lemma strip_prefix_none t i : strip_prefix t i = None <-> forall r, i <> t ++ r.
Proof.
  split.
  - intros H r E. apply strip_prefix_spec in E. congruence.
  - intros H. destruct (strip_prefix t i) eqn:E; auto. apply strip_prefix_spec in E. edestruct H; eauto.
Qed.

Lemma tag_ok t i r v : tag t i = Ok r v <-> i = t ++ r /\ v = t.
Proof.
  unfold tag. destruct (strip_prefix t i) eqn:E.
  - apply strip_prefix_spec in E. subst. split.
    + intros [= <- <-]. auto.
    + intros [E ->]. apply app_inv_head in E. congruence.
  - split; [discriminate|]. intros [-> _]. rewrite strip_prefix_none in E. edestruct E; eauto.
Qed.

(** [stops f r]: no character satisfying [f] at the front. *)
Definition stops (f : char -> bool) (r : text) : Prop := forall c r', r = c :: r' -> f c = false.

Lemma span_spec f : forall i a b, span f i = (a, b) <-> i = a ++ b /\ forallb f a = true /\ stops f b.
Proof.
  induction i as [|c i IH]; intros a b; cbn.
  - split.
    + intros [= <- <-]. repeat split; auto. intros c r; discriminate.
    + intros (E & _). destruct a; [|discriminate]. destruct b; [|discriminate]. reflexivity.
  - destruct (f c) eqn:Ef.
    + destruct (span f i) as [a' b'] eqn:E. split.
      * intros [= <- <-]. destruct (proj1 (IH _ _) eq_refl) as (-> & H1 & H2). cbn. rewrite Ef. auto.
      * intros (E' & H1 & H2). destruct a as [|x a].
        -- cbn in E'. subst b. specialize (H2 _ _ eq_refl). congruence.
        -- cbn in E'. injection E' as <- ->. cbn in H1. rewrite Ef in H1. cbn in H1.
           assert (E' : (a', b') = (a, b)) by (apply IH; auto). injection E' as -> ->. reflexivity.
    + split.
      * intros [= <- <-]. repeat split; auto. intros c' r [= <- <-]; auto.
      * intros (E' & H1 & H2). destruct a as [|x a].
        -- cbn in E'. subst. reflexivity.
        -- cbn in E'. injection E' as <- ->. cbn in H1. rewrite Ef in H1. discriminate.
Qed.
Lemma span_app f i : exists a b, span f i = (a, b) /\ i = a ++ b /\ forallb f a = true /\ stops f b.
Proof. destruct (span f i) as [a b] eqn:E. exists a, b. split; auto. apply span_spec; auto. Qed.

Lemma take_while_ok f i r v : take_while f i = Ok r v <-> i = v ++ r /\ forallb f v = true /\ stops f r.
Proof. unfold take_while. destruct (span f i) as [a b] eqn:E. rewrite <- span_spec, E. split; congruence. Qed.
Lemma take_while1_ok f i r v :
  take_while1 f i = Ok r v <-> i = v ++ r /\ forallb f v = true /\ stops f r /\ v <> [].
Proof.
  unfold take_while1. destruct (span f i) as [a b] eqn:E. split.
  - destruct a; [discriminate|]. intros [= <- <-]. apply span_spec in E. intuition congruence.
  - intros (E1 & E2 & E3 & E4). assert (H : span f i = (v, r)) by (apply span_spec; auto).
    rewrite E in H. injection H as -> ->. destruct v; congruence.
Qed.
Lemma take_while1_err f i : (exists e, take_while1 f i = Err e) <-> stops f i.
Proof.
  unfold take_while1. destruct (span f i) as [a b] eqn:E. apply span_spec in E as (E1 & E2 & E3). split.
  - intros [e H]. destruct a; [|discriminate]. cbn in E1. subst. auto.
  - intros H. destruct a as [|c a]; eauto. subst i. specialize (H c _ eq_refl). cbn in E2. rewrite H in E2. discriminate.
Qed.

Lemma pchar_ok c i r v : pchar c i = Ok r v <-> i = c :: r /\ v = c.
Proof.
  unfold pchar. destruct i as [|d i].
  - split; [discriminate|intros [? _]; discriminate].
  - destruct (N.eqb_spec d c) as [->|H]; split; try discriminate.
    + intros [= <- <-]; auto.
    + intros [[= <-] ->]; auto.
    + intros [[= E _] _]. congruence.
Qed.
Lemma pchar_cons c r : pchar c (c :: r) = Ok r c.
Proof. apply pchar_ok; auto. Qed.

Lemma find_sub_some t : t <> [] -> forall i a b, find_sub t i = Some (a, b) ->
  i = a ++ b /\ (exists r, b = t ++ r) /\ forall x y, x <> a -> (exists z, a = x ++ z) -> i <> x ++ t ++ y.
Proof.
  intros Ht. induction i as [|c i IH]; intros a b; cbn [find_sub].
  - destruct (strip_prefix t []) eqn:E.
    + apply strip_prefix_spec in E. destruct t; [congruence|discriminate].
    + discriminate.
  - destruct (strip_prefix t (c :: i)) eqn:E.
    + apply strip_prefix_spec in E. intros [= <- <-]. repeat split; eauto.
      intros x y H [z Hz]. destruct x; [congruence|discriminate].
    + destruct (find_sub t i) as [[a' b']|]; [|discriminate]. intros [= <- <-].
      destruct (IH a' b' eq_refl) as (-> & H1 & H2). repeat split; auto.
      intros x y Hx [z Hz] E'. destruct x as [|x0 x].
      * cbn in E'. rewrite strip_prefix_none in E. edestruct E; eauto.
      * cbn in Hz. injection Hz as <- Hz. cbn in E'. injection E' as E'. eapply (H2 x y); eauto. congruence.
Qed.
Lemma find_sub_none t : forall i, find_sub t i = None -> forall x y, i <> x ++ t ++ y.
Proof.
  induction i as [|c i IH]; cbn [find_sub]; intros H x y E.
  - destruct (strip_prefix t []) eqn:E1; [discriminate|].
    rewrite strip_prefix_none in E1. destruct x; [|discriminate]. cbn in E. edestruct E1; eauto.
  - destruct (strip_prefix t (c :: i)) eqn:E1; [discriminate|].
    destruct (find_sub t i) as [[]|]; [discriminate|].
    destruct x as [|x0 x].
    + rewrite strip_prefix_none in E1. edestruct E1; eauto.
    + injection E as <- E. eapply IH; eauto.
Qed.

(** ** Blanks *)
Lemma line_comment_ok i r v : line_comment i = Ok r v <->
  exists b, i = 47%N :: 47%N :: b ++ 10%N :: r /\ ~ In 10%N b /\ v = tt.
Proof.
  unfold line_comment, bind. destruct (tag (str "//") i) as [r1 v1|e|] eqn:E1.
  2:{ split; [discriminate|]. intros (b & -> & _). cbn in E1. discriminate. }
  2:{ unfold tag in E1. destruct (strip_prefix (str "//") i); discriminate. }
  apply tag_ok in E1 as [-> ->]. unfold take_until.
  destruct (find_sub [newline] r1) as [[a b]|] eqn:E2.
  - apply find_sub_some in E2 as (-> & [r2 ->] & H); [|discriminate]. cbn.
    assert (Hn : ~ In 10%N a).
    { intros Hin. apply in_split in Hin as (x & y & ->). apply (H x (y ++ [newline] ++ r2)).
      - intros E. apply (f_equal (@length _)) in E. rewrite app_length in E. cbn in E. lia.
      - eexists; reflexivity.
      - rewrite <- app_assoc. reflexivity. }
    split.
    + intros [= <- <-]. exists a. auto.
    + intros (b' & [= E] & Hb & ->). unfold newline in E.
      assert (Hs : forall x y (z z' : text), x ++ 10%N :: z = y ++ 10%N :: z' -> ~ In 10%N x -> ~ In 10%N y -> z = z').
      { clear. induction x as [|c x IH]; intros [|d y] z z' E H1 H2; cbn in E.
        - congruence.
        - injection E as E1 _. subst d. destruct H2; left; auto.
        - injection E as E1 _. subst c. destruct H1; left; auto.
        - injection E as -> E. eapply IH; eauto. intros ?; apply H1; right; auto. intros ?; apply H2; right; auto. }
      apply Hs in E; auto. subst. reflexivity.
  - split; [discriminate|]. intros (b & [= ->] & Hb & ->). edestruct find_sub_none; eauto.
    cbn. reflexivity.
Qed.

Lemma block_unique : forall b b' (r r' : text), b ++ 42%N :: 47%N :: r = b' ++ 42%N :: 47%N :: r' ->
  (forall x y, b <> x ++ 42%N :: 47%N :: y) -> (forall x y, b' <> x ++ 42%N :: 47%N :: y) -> b = b' /\ r = r'.
Proof.
  induction b as [|c b IH]; intros [|d b'] r r' E H H'.
  - cbn in E. split; congruence.
  - exfalso. cbn in E. injection E as <- E. destruct b' as [|d' b'].
    + cbn in E. discriminate.
    + cbn in E. injection E as <- E. apply (H' [] b'). reflexivity.
  - exfalso. cbn in E. injection E as -> E. destruct b as [|c' b].
    + cbn in E. discriminate.
    + cbn in E. injection E as -> E. apply (H [] b). reflexivity.
  - cbn in E. injection E as <- E. apply IH in E as [-> ->]; auto.
    + intros x y E'. apply (H (c :: x) y). cbn. congruence.
    + intros x y E'. apply (H' (c :: x) y). cbn. congruence.
Qed.

Lemma block_comment_ok i r v : block_comment i = Ok r v <->
  exists b, i = 47%N :: 42%N :: b ++ 42%N :: 47%N :: r /\ (forall x y, b <> x ++ 42%N :: 47%N :: y) /\ v = tt.
Proof.
  unfold block_comment, bind. destruct (tag (str "/*") i) as [r1 v1|e|] eqn:E1.
  2:{ split; [discriminate|]. intros (b & -> & _). cbn in E1. discriminate. }
  2:{ unfold tag in E1. destruct (strip_prefix (str "/*") i); discriminate. }
  apply tag_ok in E1 as [-> ->]. unfold take_until.
  destruct (find_sub (str "*/") r1) as [[a b]|] eqn:E2.
  - apply find_sub_some in E2 as (-> & [r2 ->] & H); [|discriminate].
    assert (Hn : forall x y, a <> x ++ 42%N :: 47%N :: y).
    { intros x y ->. apply (H x (y ++ str "*/" ++ r2)).
      - intros E. apply (f_equal (@length _)) in E. rewrite app_length in E. cbn in E. lia.
      - eexists; reflexivity.
      - rewrite <- app_assoc. reflexivity. }
    cbn. split.
    + intros [= <- <-]. exists a. auto.
    + intros (b' & [= E] & Hb & ->).
      change (str "*/" ++ r2) with (42%N :: 47%N :: r2) in E. apply block_unique in E as [-> ->]; auto.
  - split; [discriminate|]. intros (b & [= ->] & Hb & ->). edestruct find_sub_none; eauto.
    cbn. reflexivity.
Qed.

Lemma forallb_Forall {A} (f : A -> bool) (P : A -> Prop) (H : forall c, f c = true <-> P c) l :
  forallb f l = true <-> Forall P l.
Proof. rewrite forallb_forall, Forall_forall. split; intros H' x Hx; apply H; auto. Qed.
Lemma stops_spec f (P : char -> Prop) (H : forall c, f c = true <-> P c) r :
  stops f r <-> forall c r', r = c :: r' -> ~ P c.
Proof.
  unfold stops. split; intros H' c r' E; specialize (H' c r' E); rewrite <- H in *.
  - rewrite H'. discriminate.
  - destruct (f c); auto. destruct H'; auto.
Qed.

Lemma Blank_app a b : Blank a -> Blank b -> Blank (a ++ b).
Proof. induction 1; cbn; intros; auto. rewrite <- app_assoc. constructor; auto. Qed.
Lemma Blank_chars a : Forall blank_char a -> Blank a.
Proof. induction 1; [constructor|]. change (x :: l) with ([x] ++ l). constructor; auto. constructor; auto. Qed.
Lemma Blank_item a : BlankItem a -> Blank a.
Proof. intros H. rewrite <- (app_nil_r a). constructor; auto. constructor. Qed.
Lemma BlankItem_nonempty a : BlankItem a -> a <> [].
Proof. destruct 1; discriminate. Qed.

Lemma NoBlank_head c r : ~ blank_char c -> c <> 47%N -> NoBlank (c :: r).
Proof. intros H1 H2 a r' Ha E. destruct Ha; cbn in E; congruence. Qed.
Lemma NoBlank_nil : NoBlank [].
Proof. intros a r Ha E. destruct Ha; discriminate. Qed.

Lemma sp_item_spec i :
  (exists a r, sp_item i = Ok r tt /\ i = a ++ r /\ a <> [] /\ Blank a) \/
  (exists e k, sp_item i = Err (Error e k)) /\ NoBlank i.
Proof.
  unfold sp_item, alt_or.
  destruct (line_comment i) as [r v|e|] eqn:E1.
  { apply line_comment_ok in E1 as (b & -> & Hb & ->). left. exists (47%N :: 47%N :: b ++ [10%N]), r.
    repeat split; try discriminate.
    - cbn. rewrite <- app_assoc. reflexivity.
    - apply Blank_item. constructor; auto. }
  2:{ exfalso. revert E1. unfold line_comment, bind, tag, take_until, pchar.
      destruct (strip_prefix _ _); [|discriminate]. destruct (find_sub _ _) as [[]|]; [|discriminate].
      destruct t1; [discriminate|]. destruct (N.eqb _ _); discriminate. }
  assert (He : exists p k, e = Error p k).
  { revert E1. unfold line_comment, bind, tag, take_until, pchar.
    destruct (strip_prefix _ _); [|intros [= <-]; eauto]. destruct (find_sub _ _) as [[]|]; [|intros [= <-]; eauto].
    destruct t1; [intros [= <-]; eauto|]. destruct (N.eqb _ _); [discriminate|intros [= <-]; eauto]. }
  destruct He as (p & k & ->).
  destruct (ws_run i) as [r v|e|] eqn:E2.
  { unfold ws_run, pmap, bind, ret in E2. destruct (take_while1 is_ws i) as [r1 v1| |] eqn:E3; try discriminate.
    injection E2 as <- <-. apply take_while1_ok in E3 as (-> & H1 & H2 & H3). left. exists v1, r1.
    repeat split; auto. apply Blank_chars. apply (forallb_Forall is_ws); auto. apply is_ws_spec. }
  2:{ exfalso. revert E2. unfold ws_run, pmap, bind, take_while1. destruct (span _ _) as [[] ?]; discriminate. }
  assert (Hs : stops is_ws i).
  { apply take_while1_err. revert E2. unfold ws_run, pmap, bind. destruct (take_while1 is_ws i); try discriminate. eauto. }
  assert (He : exists p k, e = Error p k).
  { revert E2. unfold ws_run, pmap, bind, take_while1. destruct (span _ _) as [[] ?]; [|discriminate].
    intros [= <-]. eauto. }
  destruct He as (p' & k' & ->).
  destruct (block_comment i) as [r v|e|] eqn:E3.
  { apply block_comment_ok in E3 as (b & -> & Hb & ->). left. exists (47%N :: 42%N :: b ++ [42%N; 47%N]), r.
    repeat split; try discriminate.
    - cbn. rewrite <- app_assoc. reflexivity.
    - apply Blank_item. constructor; auto. }
  2:{ exfalso. revert E3. unfold block_comment, bind, tag, take_until.
      destruct (strip_prefix _ _); [|discriminate]. destruct (find_sub _ _) as [[]|]; [|discriminate].
      destruct (strip_prefix _ _); discriminate. }
  right.
  assert (He : exists p k, e = Error p k).
  { revert E3. unfold block_comment, bind, tag, take_until.
    destruct (strip_prefix _ _); [|intros [= <-]; eauto]. destruct (find_sub _ _) as [[]|]; [|intros [= <-]; eauto].
    destruct (strip_prefix _ _); [discriminate|intros [= <-]; eauto]. }
  destruct He as (p'' & k'' & ->). split; [unfold alt_end; eauto|].
  intros a r Ha ->. destruct Ha as [c Hc|b Hb|b Hb].
  - specialize (Hs c _ eq_refl). apply is_ws_spec in Hc. congruence.
  - assert (H : line_comment ((47%N :: 47%N :: b ++ [10%N]) ++ r) = Ok r tt).
    { apply line_comment_ok. exists b. cbn. rewrite <- app_assoc. auto. }
    congruence.
  - assert (H : block_comment ((47%N :: 42%N :: b ++ [42%N; 47%N]) ++ r) = Ok r tt).
    { apply block_comment_ok. exists b. cbn. rewrite <- app_assoc. auto. }
    congruence.
Qed.

Lemma sp_loop fuel : forall i acc, length i < fuel ->
  exists w r l, many0_loop text_eqb fuel sp_item i acc = Ok r l /\ i = w ++ r /\ Blank w /\ NoBlank r.
Proof.
  induction fuel as [|fuel IH]; intros i acc Hf; [lia|]. cbn [many0_loop].
  destruct (sp_item_spec i) as [(a & r & -> & -> & Ha & Hb)|((e & k & ->) & Hn)].
  - destruct (text_eqb r (a ++ r)) eqn:E.
    + apply text_eqb_spec in E. exfalso. apply Ha. apply (f_equal (@length _)) in E. rewrite app_length in E.
      destruct a; auto. cbn in E. lia.
    + destruct (IH r (acc ++ [tt])) as (w & r' & l & E' & -> & Hw & Hr).
      { rewrite app_length in Hf. destruct a; [congruence|]. cbn in Hf. lia. }
      exists (a ++ w), r', l. rewrite <- app_assoc. repeat split; auto. apply Blank_app; auto.
  - exists [], i, acc. repeat split; auto. constructor.
Qed.

Lemma firstn_app_len {A} (w r : list A) : firstn (length (w ++ r) - length r) (w ++ r) = w.
Proof.
  rewrite app_length, Nat.add_sub, firstn_app, Nat.sub_diag. cbn. rewrite app_nil_r. apply firstn_all.
Qed.

(** The blank skipper takes a blank and stops only where no blank begins. *)
Lemma sp_spec i : exists w r, sp i = Ok r w /\ i = w ++ r /\ Blank w /\ NoBlank r.
Proof.
  destruct (sp_loop (S (length i)) i []) as (w & r & l & E & Ei & Hw & Hr); [lia|].
  exists w, r. unfold sp, recognize, many0t, many0. rewrite E. repeat split; auto.
  rewrite Ei, firstn_app_len. reflexivity.
Qed.

Lemma BlankItem_unique a a' (r r' : text) : BlankItem a -> BlankItem a' -> a ++ r = a' ++ r' -> a = a'.
Proof.
  intros Ha Ha' E. destruct Ha as [c Hc|b Hb|b Hb]; destruct Ha' as [c' Hc'|b' Hb'|b' Hb']; cbn in E;
    try (unfold blank_char in *; injection E as E _; lia); try discriminate.
  - congruence.
  - injection E as E. rewrite <- !app_assoc in E. cbn in E.
    assert (Hs : forall x y (z z' : text), x ++ 10%N :: z = y ++ 10%N :: z' -> ~ In 10%N x -> ~ In 10%N y -> x = y).
    { clear. induction x as [|c x IH]; intros [|d y] z z' E H1 H2; cbn in E; auto.
      - injection E as E1 _. subst d. destruct H2; left; auto.
      - injection E as E1 _. subst c. destruct H1; left; auto.
      - injection E as -> E. f_equal. eapply IH; eauto. intros ?; apply H1; right; auto. intros ?; apply H2; right; auto. }
    apply Hs in E; auto. congruence.
  - injection E as E. rewrite <- !app_assoc in E. cbn in E. apply block_unique in E as [-> _]; auto.
Qed.

Lemma Blank_unique w : Blank w -> forall w' r r', Blank w' -> NoBlank r -> NoBlank r' -> w ++ r = w' ++ r' ->
  w = w' /\ r = r'.
Proof.
  induction 1 as [|a b Ha Hb IH]; intros w' r r' Hw' Hr Hr' E.
  - destruct Hw' as [|a' b' Ha' Hb']; [cbn in E; auto|]. rewrite <- app_assoc in E. edestruct Hr; eauto.
  - destruct Hw' as [|a' b' Ha' Hb'].
    + rewrite <- app_assoc in E. symmetry in E. edestruct Hr'; eauto.
    + rewrite <- !app_assoc in E. pose proof (BlankItem_unique _ _ _ _ Ha Ha' E) as <-.
      apply app_inv_head in E. destruct (IH _ _ _ Hb' Hr Hr' E) as [-> ->]. auto.
Qed.

Lemma sp_eq w r : Blank w -> NoBlank r -> sp (w ++ r) = Ok r w.
Proof.
  intros Hw Hr. destruct (sp_spec (w ++ r)) as (w' & r' & E & E' & Hw' & Hr').
  destruct (Blank_unique _ Hw _ _ _ Hw' Hr Hr' E') as [-> ->]. auto.
Qed.
Lemma sp_ok i r w : sp i = Ok r w <-> i = w ++ r /\ Blank w /\ NoBlank r.
Proof.
  split.
  - destruct (sp_spec i) as (w' & r' & E & E' & H). rewrite E. intros [= <- <-]. auto.
  - intros (-> & Hw & Hr). apply sp_eq; auto.
Qed.

(** ** The [ws!] wrapper *)
Lemma ws_ok {A} (p : parser text A) i r v : ws p i = Ok r v <->
  exists w i0 w' r0, i = w ++ i0 /\ Blank w /\ NoBlank i0 /\ p i0 = Ok r0 v /\ r0 = w' ++ r /\ Blank w' /\ NoBlank r.
Proof.
  unfold ws, bind, ret. destruct (sp_spec i) as (w & i0 & E & Ei & Hw & Hi0). rewrite E. split.
  - destruct (p i0) as [r0 a| |] eqn:Ep; try discriminate.
    destruct (sp_spec r0) as (w' & r' & E' & Er0 & Hw' & Hr'). rewrite E'. intros [= <- <-].
    exists w, i0, w', r0. auto 10.
  - intros (w1 & i1 & w2 & r0 & Ei1 & Hw1 & Hi1 & Ep & -> & Hw2 & Hr).
    rewrite Ei in Ei1. destruct (Blank_unique _ Hw _ _ _ Hw1 Hi0 Hi1 Ei1) as [-> ->].
    rewrite Ep, (sp_eq _ _ Hw2 Hr). reflexivity.
Qed.
Lemma ws_eq {A} (p : parser text A) w i0 v w' r : Blank w -> NoBlank i0 -> p i0 = Ok (w' ++ r) v -> Blank w' ->
  NoBlank r -> ws p (w ++ i0) = Ok r v.
Proof. intros. apply ws_ok. exists w, i0, w', (w' ++ r). auto 12. Qed.

(** [ws!] turns errors of its body into errors, never anything else. *)
Lemma ws_cases {A} (p : parser text A) i : exists w i0, i = w ++ i0 /\ Blank w /\ NoBlank i0 /\
  match p i0 with
  | Ok r0 v => exists w' r, r0 = w' ++ r /\ Blank w' /\ NoBlank r /\ ws p i = Ok r v
  | Err e => ws p i = Err e
  | Diverge => ws p i = Diverge
  end.
Proof.
  destruct (sp_spec i) as (w & i0 & E & Ei & Hw & Hi0). exists w, i0. repeat split; auto.
  unfold ws, bind, ret. rewrite E. destruct (p i0) as [r0 a| |] eqn:Ep; auto.
  destruct (sp_spec r0) as (w' & r' & E' & Er0 & Hw' & Hr'). exists w', r'. rewrite E'. auto.
Qed.

(** ** Words *)
Lemma ident_tag_ok t i r v : ident_tag t i = Ok r v <-> i = t ++ r /\ v = t /\ name_ends r.
Proof.
  unfold ident_tag. destruct (tag t i) as [r1 v1| |] eqn:E.
  - apply tag_ok in E as [-> ->]. split.
    + destruct r1 as [|c r1].
      * intros [= <- <-]. repeat split; auto. intros c r'; discriminate.
      * cbv zeta. destruct (_ || _ || _) eqn:Eb; [discriminate|]. intros [= <- <-]. repeat split; auto.
        intros c' r' [= <- <-]. rewrite <- first_byte_spec, Eb. discriminate.
    + intros (E' & -> & Hr). apply app_inv_head in E'. subst r1. destruct r as [|c r]; auto.
      cbv zeta. destruct (_ || _ || _) eqn:Eb; auto. apply first_byte_spec in Eb. edestruct Hr; eauto.
  - split; [discriminate|]. intros (-> & -> & _).
    assert (H : tag t (t ++ r) = Ok r t) by (apply tag_ok; auto). congruence.
  - split; [discriminate|]. intros (-> & -> & _).
    assert (H : tag t (t ++ r) = Ok r t) by (apply tag_ok; auto). congruence.
Qed.

Lemma p_term_name_ok t i r v : term_is_name t = true -> p_term t i = Ok r v <->
  exists w w', i = w ++ str (term_text t) ++ w' ++ r /\ Blank w /\ NoBlank (str (term_text t) ++ w' ++ r) /\
               name_ends (w' ++ r) /\ Blank w' /\ NoBlank r.
Proof.
  intros Ht. unfold p_term. rewrite Ht. unfold bind at 1, ret. split.
  - destruct (ws _ i) as [r1 v1| |] eqn:E; try discriminate. intros [= <- <-].
    apply ws_ok in E as (w & i0 & w' & r0 & -> & Hw & Hi0 & E & -> & Hw' & Hr).
    apply ident_tag_ok in E as (-> & -> & He). exists w, w'. auto 10.
  - intros (w & w' & -> & Hw & Hn & He & Hw' & Hr). destruct v.
    rewrite (ws_eq _ _ _ (str (term_text t)) w' r); auto. apply ident_tag_ok. auto.
Qed.
Lemma p_term_punct_ok t i r v : term_is_name t = false -> p_term t i = Ok r v <->
  exists w w', i = w ++ str (term_text t) ++ w' ++ r /\ Blank w /\ NoBlank (str (term_text t) ++ w' ++ r) /\
               Blank w' /\ NoBlank r.
Proof.
  intros Ht. unfold p_term. rewrite Ht. unfold bind at 1, ret. split.
  - destruct (ws _ i) as [r1 v1| |] eqn:E; try discriminate. intros [= <- <-].
    apply ws_ok in E as (w & i0 & w' & r0 & -> & Hw & Hi0 & E & -> & Hw' & Hr).
    apply tag_ok in E as (-> & ->). exists w, w'. auto 10.
  - intros (w & w' & -> & Hw & Hn & Hw' & Hr). destruct v.
    rewrite (ws_eq _ _ _ (str (term_text t)) w' r); auto. apply tag_ok. auto.
Qed.

(** ** Identifiers *)
Lemma recognize_ok {A} (p : parser text A) (Hp : forall i r v, p i = Ok r v -> exists x, i = x ++ r) i r v :
  recognize p i = Ok r v <-> exists a, p i = Ok r a /\ i = v ++ r.
Proof.
  unfold recognize. split.
  - destruct (p i) as [r1 a| |] eqn:E; try discriminate. intros [= <- <-].
    destruct (Hp _ _ _ E) as [x ->]. exists a. rewrite firstn_app_len. auto.
  - intros (a & E & ->). rewrite E, firstn_app_len. reflexivity.
Qed.

Definition ident_body : parser text unit :=
  take_while1 is_ascii_alphabetic ;;; take_while is_ident_char ;;; ret tt.
Lemma ident_body_ok i r v : ident_body i = Ok r v <-> exists s, i = s ++ r /\ NameLex s /\ name_ends r.
Proof.
  unfold ident_body, bind, ret. split.
  - destruct (take_while1 is_ascii_alphabetic i) as [r1 v1| |] eqn:E1; try discriminate.
    destruct (take_while is_ident_char r1) as [r2 v2| |] eqn:E2; try discriminate. intros [= <- <-].
    apply take_while1_ok in E1 as (-> & H1 & _ & H2). apply take_while_ok in E2 as (-> & H3 & H4).
    exists (v1 ++ v2). rewrite app_assoc. repeat split; auto.
    + destruct v1 as [|c v1]; [congruence|]. cbn in H1. apply andb_true_iff in H1 as [Hc H1].
      exists c, (v1 ++ v2). repeat split; auto. apply is_letter_spec; auto.
      apply Forall_app. split.
      * apply (forallb_Forall _ _ is_letter_spec) in H1. eapply Forall_impl; [|exact H1]. intros x Hx; left; auto.
      * apply (forallb_Forall _ _ is_ident_char_spec) in H3. auto.
    + unfold name_ends. apply (proj1 (stops_spec _ _ is_ident_char_spec _)). auto.
  - intros (s & -> & (c & w & -> & Hc & Hw) & He). destruct v.
    destruct (span_app is_ascii_alphabetic ((c :: w) ++ r)) as (a & b & E & Ei & Ha & Hb).
    assert (Han : a <> []).
    { intros ->. cbn in Ei. specialize (Hb c (w ++ r)). cbn in Hb. apply is_letter_spec in Hc.
      rewrite Hb in Hc by congruence. discriminate. }
    assert (E1 : take_while1 is_ascii_alphabetic ((c :: w) ++ r) = Ok b a) by (apply take_while1_ok; auto).
    rewrite E1.
    (* the letters taken first are part of the name *)
    assert (Hx : exists x, c :: w = a ++ x /\ b = x ++ r).
    { clear E E1. apply app_eq_app in Ei as (l & [(Ea & Eb)|(Ea & Eb)]).
      - exists l. auto.
      - destruct l as [|d l].
        + cbn in Eb. exists []. rewrite app_nil_r in *. cbn. auto.
        + exfalso. subst r. specialize (He d _ eq_refl). apply He. left.
          rewrite Ea in Ha. rewrite forallb_app in Ha. apply andb_true_iff in Ha as [_ Ha].
          cbn in Ha. apply andb_true_iff in Ha as [Ha _]. apply is_letter_spec. auto. }
    destruct Hx as (x & Ex & ->).
    assert (Hxn : Forall name_char x).
    { assert (H : Forall name_char (c :: w)) by (constructor; [left|]; auto).
      rewrite Ex in H. apply Forall_app in H. tauto. }
    assert (E2 : take_while is_ident_char (x ++ r) = Ok r x).
    { apply take_while_ok. repeat split; auto.
      - apply (forallb_Forall _ _ is_ident_char_spec). auto.
      - apply (proj2 (stops_spec _ _ is_ident_char_spec _)). auto. }
    rewrite E2. reflexivity.
Qed.

Lemma letter_not_blank c : letter c -> ~ blank_char c /\ c <> 47%N.
Proof. unfold letter, blank_char. lia. Qed.
Lemma NameLex_head s : NameLex s -> exists c w, s = c :: w /\ letter c.
Proof. intros (c & w & H & H' & _). eauto. Qed.

(** An identifier is an optional underscore and a name that ends where no name character follows. *)
Lemma p_Identifier_ok i r v : p_Identifier i = Ok r v <->
  exists w u w', i = w ++ u ++ v ++ w' ++ r /\ Blank w /\ (u = [] \/ u = [95%N]) /\ NameLex v /\ name_ends (w' ++ r) /\
                 Blank w' /\ NoBlank r.
Proof.
  unfold p_Identifier. fold ident_body.
  assert (Hsuf : forall i r v, ident_body i = Ok r v -> exists x, i = x ++ r).
  { intros j k v0 E. apply ident_body_ok in E as (s & -> & _). eauto. }
  assert (Hb : forall j k n, bind (recognize ident_body) (fun id => ret id) j = Ok k n <->
                             j = n ++ k /\ NameLex n /\ name_ends k).
  { intros j k n. unfold bind, ret. split.
    - destruct (recognize ident_body j) as [k' n'| |] eqn:E; try discriminate. intros [= <- <-].
      apply recognize_ok in E as (a & E & ->); auto. apply ident_body_ok in E as (s & E & H1 & H2).
      apply app_inv_tail in E. subst s. auto.
    - intros (-> & H1 & H2).
      assert (E : recognize ident_body (n ++ k) = Ok k n).
      { apply recognize_ok; auto. exists tt. split; auto. apply ident_body_ok. exists n. auto. }
      rewrite E. reflexivity. }
  split.
  - intros E. apply ws_ok in E as (w & i0 & w' & r0 & -> & Hw & Hi0 & E & -> & Hw' & Hr).
    unfold bind at 1 in E. unfold opt in E. chrs. destruct (pchar 95%N i0) as [r1 c|[]|] eqn:Ep; try discriminate.
    + apply pchar_ok in Ep as [-> ->]. apply Hb in E as (-> & H1 & H2).
      exists w, [95%N], w'. cbn. auto 10.
    + apply Hb in E as (-> & H1 & H2). exists w, [], w'. cbn. auto 10.
  - intros (w & u & w' & -> & Hw & Hu & Hv & He & Hw' & Hr).
    apply NameLex_head in Hv as Hv'. destruct Hv' as (c & s & Ec & Hc).
    destruct Hu as [-> | ->].
    + cbn [app]. apply (ws_eq _ _ _ _ w'); auto.
      * rewrite Ec. apply NoBlank_head; apply letter_not_blank; auto.
      * unfold bind at 1, opt. chrs.
        assert (Ep : pchar 95%N (v ++ w' ++ r) = Err (Error (v ++ w' ++ r) KChar)).
        { rewrite Ec. cbn. destruct (N.eqb_spec c 95); auto. unfold letter in Hc. lia. }
        rewrite Ep. apply Hb. auto.
    + apply (ws_eq _ _ ([95%N] ++ v ++ w' ++ r) _ w'); auto.
      * apply NoBlank_head; unfold blank_char; lia.
      * unfold bind at 1, opt. chrs. cbn [app]. rewrite pchar_cons. apply Hb. auto.
Qed.

(** ** Strings *)
Lemma p_StringLit_ok i r v : p_StringLit i = Ok r v <->
  exists w w', i = w ++ 34%N :: v ++ 34%N :: w' ++ r /\ Blank w /\ ~ In 34%N v /\ Blank w' /\ NoBlank r.
Proof.
  unfold p_StringLit.
  assert (Hf : forall l, forallb (fun c => negb (N.eqb c 34%N)) l = true <-> ~ In 34%N l).
  { intros l. rewrite forallb_forall. split.
    - intros H Hin. specialize (H _ Hin). cbn in H. discriminate.
    - intros H x Hx. destruct (N.eqb_spec x 34); auto. subst. contradiction. }
  assert (Hb : forall j k n, (pchar (chr """") ;;;
      s <- take_while (fun c => negb (N.eqb c (chr """"))) ;; pchar (chr """") ;;; ret s) j = Ok k n <->
      j = 34%N :: n ++ 34%N :: k /\ ~ In 34%N n).
  { intros j k n. chrs. unfold bind, ret. split.
    - destruct (pchar 34%N j) as [j1 c1| |] eqn:E1; try discriminate.
      destruct (take_while _ j1) as [j2 c2| |] eqn:E2; try discriminate.
      destruct (pchar 34%N j2) as [j3 c3| |] eqn:E3; try discriminate. intros [= <- <-].
      apply pchar_ok in E1 as [-> ->]. apply take_while_ok in E2 as (-> & H1 & _). apply pchar_ok in E3 as [-> ->].
      split; auto. apply Hf; auto.
    - intros (-> & Hn). rewrite pchar_cons.
      assert (E2 : take_while (fun c => negb (N.eqb c 34%N)) (n ++ 34%N :: k) = Ok (34%N :: k) n).
      { apply take_while_ok. repeat split; auto. apply Hf; auto. intros c r' [= <- <-]. reflexivity. }
      rewrite E2, pchar_cons. reflexivity. }
  split.
  - intros E. apply ws_ok in E as (w & i0 & w' & r0 & -> & Hw & Hi0 & E & -> & Hw' & Hr).
    apply Hb in E as [-> Hn]. exists w, w'. auto 10.
  - intros (w & w' & -> & Hw & Hn & Hw' & Hr). apply (ws_eq _ _ _ _ w'); auto.
    + apply NoBlank_head; unfold blank_char; lia.
    + apply Hb. auto.
Qed.
