(** * The terminals of the grammar read tokens. *)
From Coq Require Import String Ascii NArith Arith Bool List Lia.
From Verif Require Import Nom Lex Ast Grammar Spec LexFacts NumFacts RunFacts.
Import ListNotations.
Open Scope list_scope.

(** ** Numbers: longest match among all kinds *)
Lemma FloatBody_not_digits b : FloatBody b -> ~ Forall digit b.
Proof.
  intros [(w1 & w2 & x & -> & _)|(w & x & -> & _ & _ & Hx)] H.
  - apply Forall_app in H as [_ H]. inversion H; subst. unfold digit in *. lia.
  - apply Forall_app in H as [_ H]. apply ExpLex_head in Hx as (c & x' & -> & Hc). inversion H; subst.
    unfold digit in *. lia.
Qed.
Lemma DecBody_digits b : DecBody b -> Forall digit b.
Proof. intros (d & w & -> & H & Hw). constructor; auto. unfold digit. lia. Qed.
Lemma OctBody_digits b : OctBody b -> Forall digit b.
Proof.
  intros (w & -> & Hw). constructor. unfold digit; lia. eapply Forall_impl; [|exact Hw].
  unfold octdigit, digit. intros; lia.
Qed.
Lemma FloatBody_not_hex b x : FloatBody b -> HexBody (b ++ x) -> False.
Proof.
  intros [(w1 & w2 & y & -> & H1 & _)|(w & y & -> & Hn & H1 & Hx)] (c & h & E & Hc & _).
  - destruct w1 as [|a [|a' w1]]; cbn in E.
    + discriminate.
    + injection E as -> E _. lia.
    + injection E as -> -> _. inversion H1; subst. inversion H3; subst. unfold digit in *. lia.
  - apply ExpLex_head in Hx as (e & y' & -> & He). destruct w as [|a [|a' w]]; cbn in E.
    + congruence.
    + injection E as -> -> _. lia.
    + injection E as -> -> _. inversion H1; subst. inversion H3; subst. unfold digit in *. lia.
Qed.
Lemma sign_body (P Q : text -> Prop) (HP : forall s, P s -> exists c x, s = c :: x /\ (digit c \/ c = 46%N))
  (HQ : forall s, Q s -> exists c x, s = c :: x /\ (digit c \/ c = 46%N)) s x :
  signed P s -> signed Q (s ++ x) -> exists b, P b /\ Q (b ++ x).
Proof.
  intros (m & b & -> & Hm & Hb) (m' & b' & E & Hm' & Hb').
  pose proof (HP _ Hb) as (c & y & -> & Hc). pose proof (HQ _ Hb') as (c' & y' & -> & Hc').
  destruct Hm as [->| ->], Hm' as [->| ->]; cbn in E.
  - exists (c :: y). split; auto. cbn. rewrite E. auto.
  - injection E as -> _. unfold digit in Hc. lia.
  - injection E as <- _. unfold digit in Hc'. lia.
  - injection E as <- E. exists (c :: y). split; auto. cbn. rewrite E. auto.
Qed.
Lemma float_not_int s x : FloatLex s -> DecLex (s ++ x) \/ HexLex (s ++ x) \/ OctLex (s ++ x) -> False.
Proof.
  intros Hf [H|[H|H]].
  - apply signed_dec in H. destruct (sign_body _ _ FloatBody_head DecBody_head s x Hf H) as (b & Hb & Hd).
    apply DecBody_digits, Forall_app in Hd as [Hd _]. apply (FloatBody_not_digits b); auto.
  - apply signed_hex in H. destruct (sign_body _ _ FloatBody_head HexBody_head s x Hf H) as (b & Hb & Hd).
    eapply FloatBody_not_hex; eauto.
  - apply signed_oct in H. destruct (sign_body _ _ FloatBody_head OctBody_head s x Hf H) as (b & Hb & Hd).
    apply OctBody_digits, Forall_app in Hd as [Hd _]. apply (FloatBody_not_digits b); auto.
Qed.
Lemma dec_not_hex s x y : DecLex s -> s = x \/ s = x ++ y \/ s ++ y = x -> HexLex x -> False.
Proof.
  intros Hd E Hx. apply signed_dec in Hd. apply signed_hex in Hx.
  destruct E as [->|[->| <-]].
  - rewrite <- (app_nil_r x) in Hd. destruct (sign_body _ _ HexBody_head DecBody_head _ _ Hx Hd) as (b & (c & h & -> & _) & (d & w & E & H & _)).
    injection E as <- _. lia.
  - destruct (sign_body _ _ HexBody_head DecBody_head _ _ Hx Hd) as (b & (c & h & -> & _) & (d & w & E & H & _)).
    injection E as <- _. lia.
  - destruct (sign_body _ _ DecBody_head HexBody_head _ _ Hd Hx) as (b & (d & w & -> & H & _) & (c & h & E & _)).
    injection E as -> _. lia.
Qed.
Lemma dec_not_oct s x y : DecLex s -> s = x \/ s = x ++ y \/ s ++ y = x -> OctLex x -> False.
Proof.
  intros Hd E Hx. apply signed_dec in Hd. apply signed_oct in Hx.
  destruct E as [->|[->| <-]].
  - rewrite <- (app_nil_r x) in Hd. destruct (sign_body _ _ OctBody_head DecBody_head _ _ Hx Hd) as (b & (c & -> & _) & (d & w & E & H & _)).
    injection E as <- _. lia.
  - destruct (sign_body _ _ OctBody_head DecBody_head _ _ Hx Hd) as (b & (c & -> & _) & (d & w & E & H & _)).
    injection E as <- _. lia.
  - destruct (sign_body _ _ DecBody_head OctBody_head _ _ Hd Hx) as (b & (d & w & -> & H & _) & (c & E & _)).
    injection E as -> _. lia.
Qed.
Lemma hex_not_oct s x : HexLex s -> OctLex (s ++ x) -> False.
Proof.
  intros Hd Hx. apply signed_hex in Hd. apply signed_oct in Hx.
  destruct (sign_body _ _ HexBody_head OctBody_head _ _ Hd Hx) as (b & (d & w & -> & H & _) & (c & E & Hc)).
  injection E as <-. inversion Hc; subst. unfold octdigit in *. lia.
Qed.

Lemma prefix_cases {A} (s r s' r' : list A) : s ++ r = s' ++ r' ->
  (exists z, s' = s ++ z /\ r = z ++ r') \/ (exists z, s = s' ++ z /\ r' = z ++ r).
Proof.
  intros E. apply app_eq_app in E as (z & [[H1 H2]|[H1 H2]]); [right|left]; exists z; auto.
Qed.

(** [num_ends] says that the longest number ends here. *)
Lemma num_ends_longest s r : NumLex s -> num_ends s r <-> Longest NumLex (s ++ r) s r.
Proof.
  intros Hs. split.
  - intros H. split; [|split]; auto. intros s' r' E H'.
    apply prefix_cases in E as [(z & -> & ->)|(z & -> & _)].
    + destruct z as [|c z]; [rewrite app_nil_r; auto|]. edestruct H; eauto. discriminate.
    + rewrite app_length. lia.
  - intros (_ & _ & H) x y -> Hx Hn. specialize (H (s ++ x) y). rewrite <- app_assoc in H. specialize (H eq_refl Hn).
    rewrite app_length in H. destruct x; [congruence|]. cbn in H. lia.
Qed.

Lemma float_longest s r : Longest FloatLex (s ++ r) s r <-> FloatLex s /\ num_ends s r.
Proof.
  split.
  - intros (_ & Hs & Hl). split; auto. intros x y -> Hx [H|H].
    + specialize (Hl (s ++ x) y). rewrite <- app_assoc in Hl. specialize (Hl eq_refl H).
      rewrite app_length in Hl. destruct x; [congruence|]. cbn in Hl. lia.
    + eapply float_not_int; eauto.
  - intros (Hs & He). apply num_ends_longest in He as (E & _ & Hl); [|left; auto].
    split; [|split]; auto. intros s' r' E' H'. eapply Hl; eauto. left; auto.
Qed.
Lemma dec_longest s r : (forall x y, s ++ r = x ++ y -> ~ FloatLex x) ->
  Longest DecLex (s ++ r) s r <-> DecLex s /\ num_ends s r.
Proof.
  intros Hf. split.
  - intros (_ & Hs & Hl). split; auto. intros x y -> Hx [H|[H|[H|H]]].
    + apply (Hf (s ++ x) y); auto. rewrite app_assoc. auto.
    + specialize (Hl (s ++ x) y). rewrite <- app_assoc in Hl. specialize (Hl eq_refl H).
      rewrite app_length in Hl. destruct x; [congruence|]. cbn in Hl. lia.
    + apply (dec_not_hex s (s ++ x) x); auto.
    + apply (dec_not_oct s (s ++ x) x); auto.
  - intros (Hs & He). apply num_ends_longest in He as (E & _ & Hl); [|right; left; auto].
    split; [|split]; auto. intros s' r' E' H'. eapply Hl; eauto. right; left; auto.
Qed.
Lemma hex_longest s r : (forall x y, s ++ r = x ++ y -> ~ FloatLex x) ->
  Longest HexLex (s ++ r) s r <-> HexLex s /\ num_ends s r.
Proof.
  intros Hf. split.
  - intros (_ & Hs & Hl). split; auto. intros x y -> Hx [H|[H|[H|H]]].
    + apply (Hf (s ++ x) y); auto. rewrite app_assoc. auto.
    + apply (dec_not_hex (s ++ x) s x); auto.
    + specialize (Hl (s ++ x) y). rewrite <- app_assoc in Hl. specialize (Hl eq_refl H).
      rewrite app_length in Hl. destruct x; [congruence|]. cbn in Hl. lia.
    + eapply hex_not_oct; eauto.
  - intros (Hs & He). apply num_ends_longest in He as (E & _ & Hl); [|right; right; left; auto].
    split; [|split]; auto. intros s' r' E' H'. eapply Hl; eauto. right; right; left; auto.
Qed.
Lemma oct_longest s r : (forall x y, s ++ r = x ++ y -> ~ FloatLex x) -> (forall x y, s ++ r = x ++ y -> ~ HexLex x) ->
  Longest OctLex (s ++ r) s r <-> OctLex s /\ num_ends s r.
Proof.
  intros Hf Hh. split.
  - intros (_ & Hs & Hl). split; auto. intros x y -> Hx [H|[H|[H|H]]].
    + apply (Hf (s ++ x) y); auto. rewrite app_assoc. auto.
    + apply (dec_not_oct (s ++ x) s x); auto.
    + apply (Hh (s ++ x) y); auto. rewrite app_assoc. auto.
    + specialize (Hl (s ++ x) y). rewrite <- app_assoc in Hl. specialize (Hl eq_refl H).
      rewrite app_length in Hl. destruct x; [congruence|]. cbn in Hl. lia.
  - intros (Hs & He). apply num_ends_longest in He as (E & _ & Hl); [|right; right; right; auto].
    split; [|split]; auto. intros s' r' E' H'. eapply Hl; eauto. right; right; right; auto.
Qed.

Lemma IntLex_Num l : IntLex l -> NumLex (int_text l).
Proof. destruct l; cbn; unfold NumLex; tauto. Qed.
Lemma int_no_float l r : IntLex l -> num_ends (int_text l) r -> forall x y, int_text l ++ r = x ++ y -> ~ FloatLex x.
Proof.
  intros Hl He x y E Hx. apply prefix_cases in E as [(z & -> & ->)|(z & E & ->)].
  - destruct z as [|c z].
    + rewrite app_nil_r in Hx. apply (float_not_int _ [] Hx). rewrite app_nil_r. destruct l; cbn in *; tauto.
    + eapply He; eauto. discriminate. left; auto.
  - apply (float_not_int _ z Hx). rewrite <- E. destruct l; cbn in *; tauto.
Qed.
Lemma oct_no_hex s r : OctLex s -> num_ends s r -> forall x y, s ++ r = x ++ y -> ~ HexLex x.
Proof.
  intros Hl He x y E Hx. apply prefix_cases in E as [(z & -> & ->)|(z & -> & ->)].
  - destruct z as [|c z].
    + rewrite app_nil_r in Hx. apply (hex_not_oct _ [] Hx). rewrite app_nil_r. auto.
    + eapply He; eauto. discriminate. right; right; left; auto.
  - apply (hex_not_oct _ z Hx). auto.
Qed.

(** ** Tokens are determined by the text *)
Lemma name_max n n' x x' : n ++ x = n' ++ x' -> NameLex n -> NameLex n' -> name_ends x -> name_ends x' -> n = n' /\ x = x'.
Proof.
  intros E (c & w & -> & Hc & Hw) (c' & w' & -> & Hc' & Hw') Hx Hx'.
  apply (split_eq name_char) in E; auto; constructor; auto; left; auto.
Qed.

Lemma spell_head t : valid_tok t -> exists c x, spell t = c :: x /\
  match t with
  | TName true _ => c = 95%N
  | TName false _ => letter c
  | TPunct s => In (c :: x) (map str puncts)
  | TNegInf => c = 45%N
  | TInt _ | TFloat _ => digit c \/ c = 46%N \/ c = 45%N
  | TStr _ => c = 34%N
  end.
Proof.
  destruct t as [[] n|s| |l|s|s]; cbn [valid_tok spell]; intros H.
  - eauto.
  - destruct H as (c & w & -> & Hc & _). eauto.
  - assert (Hs : s <> EmptyString). { cbn in H. intuition congruence. }
    destruct s as [|a s]; [congruence|]. do 2 eexists. split; [reflexivity|].
    exact (in_map str _ _ H).
  - do 2 eexists; split; reflexivity.
  - apply IntLex_Num, NumLex_head in H as (c & x & E & H). eauto.
  - destruct (NumLex_head s (or_introl H)) as (c & x & E & H'). eauto.
  - do 2 eexists; split; reflexivity.
Qed.

Lemma puncts_head c x : In (c :: x) (map str puncts) ->
  ~ letter c /\ ~ digit c /\ c <> 95%N /\ c <> 45%N /\ c <> 34%N /\ ~ blank_char c /\ c <> 47%N /\
  (c = 46%N -> x = [46%N; 46%N]) /\ (c <> 46%N -> x = []).
Proof.
  cbn. unfold letter, digit, blank_char.
  intros H. repeat (destruct H as [H|H]; [injection H as <- <-; repeat split; try lia; intros; try congruence; lia|]).
  destruct H.
Qed.

Lemma spell_NoBlank t x : valid_tok t -> NoBlank (spell t ++ x).
Proof.
  intros H. destruct (spell_head t H) as (c & y & -> & Hc). apply NoBlank_head.
  - destruct t as [[]| | | | |]; try (apply puncts_head in Hc; tauto); unfold letter, digit, blank_char in *; lia.
  - destruct t as [[]| | | | |]; try (apply puncts_head in Hc; tauto); unfold letter, digit, blank_char in *; lia.
Qed.
Lemma spell_nonempty t : valid_tok t -> spell t <> [].
Proof. intros H. destruct (spell_head t H) as (c & y & -> & Hc). discriminate. Qed.

Lemma FloatLex_dot x : FloatLex (46%N :: x) -> exists c y, x = c :: y /\ digit c.
Proof.
  intros (m & b & E & [->| ->] & Hb); [|discriminate]. cbn in E. subst b.
  destruct Hb as [(w1 & w2 & y & E & H1 & H2 & Hn & _)|(w & y & E & Hn & H1 & _)].
  - destruct w1 as [|a w1].
    + injection E as ->. destruct w2 as [|c w2]; [intuition congruence|]. inversion H2; subst. cbn. eauto.
    + injection E as <- _. inversion H1; subst. unfold digit in *. lia.
  - destruct w as [|a w]; [congruence|]. injection E as <- _. inversion H1; subst. unfold digit in *. lia.
Qed.
Lemma IntLex_no_dot l x : IntLex l -> int_text l <> 46%N :: x.
Proof.
  destruct l as [s|s|s]; cbn; intros H ->.
  - destruct H as (m & d & w & E & [->| ->] & Hd & _); injection E as E _; lia.
  - destruct H as (m & d & w & E & [->| ->] & Hd & _); injection E as E _; lia.
  - destruct H as (m & w & E & [->| ->] & _); injection E as E _; lia.
Qed.
Lemma NumLex_minus x : NumLex (45%N :: x) -> exists c y, x = c :: y /\ (digit c \/ c = 46%N).
Proof.
  assert (H : forall P : text -> Prop, (forall s, P s -> exists c x, s = c :: x /\ (digit c \/ c = 46%N)) ->
    signed P (45%N :: x) -> exists c y, x = c :: y /\ (digit c \/ c = 46%N)).
  { intros P HP (m & b & E & Hm & Hb). apply HP in Hb as (c & y & -> & Hc). destruct Hm as [->| ->].
    - cbn in E. injection E as <- _. unfold digit in Hc. lia.
    - cbn in E. injection E as ->. eauto. }
  intros [H'|[H'|[H'|H']]].
  - apply (H FloatBody); auto. apply FloatBody_head.
  - apply (H DecBody). apply DecBody_head. apply signed_dec; auto.
  - apply (H HexBody). apply HexBody_head. apply signed_hex; auto.
  - apply (H OctBody). apply OctBody_head. apply signed_oct; auto.
Qed.

Lemma num_max s s' x x' : s ++ x = s' ++ x' -> NumLex s -> NumLex s' -> num_ends s x -> num_ends s' x' -> s = s' /\ x = x'.
Proof.
  intros E H H' He He'. apply num_ends_longest in He; auto. apply num_ends_longest in He'; auto.
  rewrite <- E in He'. eapply Longest_unique; eauto.
Qed.

Lemma int_kind l l' : IntLex l -> IntLex l' -> int_text l = int_text l' -> l = l'.
Proof.
  destruct l as [s|s|s], l' as [s'|s'|s']; cbn; intros H H' E; subst; auto; exfalso;
    (eapply dec_not_hex; [| |eassumption]; [eassumption|auto]; fail) ||
    (eapply dec_not_oct; [| |eassumption]; [eassumption|auto]; fail) ||
    (eapply (hex_not_oct s' []); rewrite ?app_nil_r; assumption).
  Unshelve. all: exact [].
Qed.

Definition num_tok (t : tok) : option text :=
  match t with TInt l => Some (int_text l) | TFloat s => Some s | _ => None end.
Lemma num_tok_ok t s : num_tok t = Some s -> valid_tok t ->
  NumLex s /\ spell t = s /\ forall r, ends_ok t r <-> num_ends s r.
Proof.
  destruct t; cbn; try discriminate; intros [= <-] H; repeat split; auto.
  - apply IntLex_Num; auto.
  - left; auto.
Qed.

Theorem tok_det t t' x x' : valid_tok t -> valid_tok t' -> ends_ok t x -> ends_ok t' x' ->
  spell t ++ x = spell t' ++ x' -> t = t' /\ x = x'.
Proof.
  intros H H' He He' E.
  destruct (spell_head t H) as (c & y & Es & Hc). destruct (spell_head t' H') as (c' & y' & Es' & Hc').
  assert (Ec : c = c'). { rewrite Es, Es' in E. cbn in E. congruence. } subst c'.
  assert (Hnn : forall s s', num_tok t = Some s -> num_tok t' = Some s' -> t = t' /\ x = x').
  { intros s s' E1 E2. destruct (num_tok_ok _ _ E1 H) as (N1 & S1 & N2). destruct (num_tok_ok _ _ E2 H') as (N1' & S1' & N2').
    rewrite S1, S1' in E. apply N2 in He. apply N2' in He'.
    destruct (num_max _ _ _ _ E N1 N1' He He') as [<- <-]. split; auto.
    destruct t, t'; cbn in E1, E2; try discriminate.
    - f_equal. apply int_kind; auto. congruence.
    - exfalso. injection E1 as <-. injection E2 as ->. cbn in H, H'. apply (float_not_int _ [] H').
      rewrite app_nil_r. destruct l; cbn in *; tauto.
    - exfalso. injection E1 as <-. injection E2 as <-. cbn in H, H'. apply (float_not_int _ [] H).
      rewrite app_nil_r. destruct l; cbn in *; tauto.
    - congruence. }
  destruct t as [[] n|s| |l|s|s]; destruct t' as [[] n'|s'| |l'|s'|s']; cbn [num_tok] in Hnn;
    try (apply (Hnn _ _ eq_refl eq_refl));
    try (exfalso; unfold letter, digit in *; lia);
    try (exfalso; apply puncts_head in Hc; unfold letter, digit in *; intuition (try lia; try congruence); fail);
    try (exfalso; apply puncts_head in Hc'; unfold letter, digit in *; intuition (try lia; try congruence); fail);
    clear Hnn.
  - (* names *) cbn in E. injection E as E. destruct (name_max _ _ _ _ E H H' He He') as [-> ->]. auto.
  - cbn in E. destruct (name_max _ _ _ _ E H H' He He') as [-> ->]. auto.
  - (* punctuation *)
    cbn [spell] in *.
    assert (Hs : s = s').
    { apply puncts_head in Hc as (_ & _ & _ & _ & _ & _ & _ & D1 & D2).
      apply puncts_head in Hc' as (_ & _ & _ & _ & _ & _ & _ & D1' & D2').
      assert (Eq : str s = str s'). { rewrite Es, Es'. destruct (N.eq_dec c 46); f_equal; [rewrite D1, D1'|rewrite D2, D2']; auto. }
      clear -Eq. revert s' Eq. induction s as [|a s IH]; intros [|a' s'] Eq; cbn in Eq; try discriminate; auto.
      injection Eq as Ea Eq. f_equal; auto. rewrite <- (ascii_N_embedding a), Ea, ascii_N_embedding. reflexivity. }
    subst s'. apply app_inv_head in E. auto.
  - (* ... against an integer *)
    exfalso. cbn [spell] in *. apply puncts_head in Hc as (D1 & D2 & D3 & D4 & D5 & _).
    destruct Hc' as [?|[->|?]]; [contradiction| |congruence]. eapply IntLex_no_dot; eauto.
  - (* ... against a float *)
    exfalso. cbn [spell] in *. apply puncts_head in Hc as (D1 & D2 & D3 & D4 & D5 & _ & _ & D6 & _).
    destruct Hc' as [?|[->|?]]; [contradiction| |congruence]. rewrite D6 in Es by auto. subst s'.
    apply FloatLex_dot in H' as (c & z & -> & Hd). rewrite Es in E. cbn in E. injection E as <- _. unfold digit in Hd. lia.
  - (* -Infinity *) cbn in E. injection E as E. auto.
  - exfalso. subst c. cbn [spell] in *. cbn in H'. apply IntLex_Num in H'. rewrite Es' in H', E.
    apply NumLex_minus in H' as (d & z & -> & Hd). cbn in E. injection E as <- _. unfold digit in Hd. lia.
  - exfalso. subst c. cbn [spell] in *. cbn in H'. apply or_introl with (B := DecLex s' \/ HexLex s' \/ OctLex s') in H'.
    change (NumLex s') in H'. rewrite Es' in H', E.
    apply NumLex_minus in H' as (d & z & -> & Hd). cbn in E. injection E as <- _. unfold digit in Hd. lia.
  - exfalso. cbn [spell] in *. apply puncts_head in Hc' as (D1 & D2 & D3 & D4 & D5 & _).
    destruct Hc as [?|[->|?]]; [contradiction| |congruence]. eapply IntLex_no_dot; eauto.
  - exfalso. subst c. cbn [spell] in *. cbn in H. apply IntLex_Num in H. rewrite Es in H, E.
    apply NumLex_minus in H as (d & z & -> & Hd). cbn in E. injection E as -> _. unfold digit in Hd. lia.
  - exfalso. cbn [spell] in *. apply puncts_head in Hc' as (D1 & D2 & D3 & D4 & D5 & _ & _ & D6 & _).
    destruct Hc as [?|[->|?]]; [contradiction| |congruence]. rewrite D6 in Es' by auto. subst s.
    apply FloatLex_dot in H as (c & z & -> & Hd). rewrite Es' in E. cbn in E. injection E as -> _. unfold digit in Hd. lia.
  - exfalso. subst c. cbn [spell] in *. cbn in H. apply or_introl with (B := DecLex s \/ HexLex s \/ OctLex s) in H.
    change (NumLex s) in H. rewrite Es in H, E.
    apply NumLex_minus in H as (d & z & -> & Hd). cbn in E. injection E as -> _. unfold digit in Hd. lia.
  - (* strings *) cbn in E. injection E as E. rewrite <- !app_assoc in E. cbn in E.
    assert (Hs : forall u v (z z' : text), u ++ 34%N :: z = v ++ 34%N :: z' -> ~ In 34%N u -> ~ In 34%N v -> u = v /\ z = z').
    { clear. induction u as [|c u IH]; intros [|d v] z z' E H1 H2; cbn in E.
      - injection E as ->. auto.
      - injection E as E1 _. subst d. destruct H2; left; auto.
      - injection E as E1 _. subst c. destruct H1; left; auto.
      - injection E as -> E. destruct (IH _ _ _ E) as [-> ->]; auto.
        intros ?; apply H1; right; auto. intros ?; apply H2; right; auto. }
    destruct (Hs _ _ _ _ E H H') as [-> ->]. auto.
Qed.
