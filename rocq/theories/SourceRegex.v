(** * The regular expressions in the documentation of the literals and of identifiers *)
From Coq Require Import String Ascii NArith Arith Bool List Lia.
From Verif Require Import Source Rust Crate Interp Embed Faithful SourceLex SourceTypes SourceProps SourceFacts SourceTests SourceDocs
  Nom Lex Ast Grammar Spec RunFacts LexFacts NumFacts TokFacts TermFacts LexProps Api ApiFacts.
Import ListNotations.
Open Scope string_scope.
Open Scope list_scope.

(** ** Regular expressions *)
(** A set of characters is given by ranges. *)
Inductive rx : Set :=
| XSet (neg : bool) (l : list (N * N))
| XNil
| XSeq (a b : rx)
| XOr (a b : rx)
| XStar (a : rx).
Definition in_ranges (c : N) (l : list (N * N)) : bool := existsb (fun p => (N.leb (fst p) c && N.leb c (snd p))%bool) l.
Inductive Matches : rx -> text -> Prop :=
| Mt_set neg l c : in_ranges c l = negb neg -> Matches (XSet neg l) [c]
| Mt_nil : Matches XNil []
| Mt_seq a b x y : Matches a x -> Matches b y -> Matches (XSeq a b) (x ++ y)
| Mt_left a b x : Matches a x -> Matches (XOr a b) x
| Mt_right a b x : Matches b x -> Matches (XOr a b) x
| Mt_stop a : Matches (XStar a) []
| Mt_more a x y : Matches a x -> Matches (XStar a) y -> Matches (XStar a) (x ++ y).

(** ** Reading them *)
Definition char_code (c : ascii) : N := N_of_ascii c.
(** The ranges in brackets. *)
Fixpoint rx_ranges (n : nat) (s : string) : list (N * N) * string :=
  match n, s with
  | S n, String c s' =>
      if Ascii.eqb c "]" then ([], s')
      else match s' with
           | String d (String e s'') =>
               if Ascii.eqb d "-" && negb (Ascii.eqb e "]") then let '(l, r) := rx_ranges n s'' in ((char_code c, char_code e) :: l, r)
               else let '(l, r) := rx_ranges n s' in ((char_code c, char_code c) :: l, r)
           | _ => let '(l, r) := rx_ranges n s' in ((char_code c, char_code c) :: l, r)
           end
  | _, _ => ([], s)
  end.
(** [?], [*] and [+] after an expression. *)
Definition rx_post (a : rx) (s : string) : rx * string :=
  match s with
  | String c s' => if Ascii.eqb c "?" then (XOr a XNil, s') else if Ascii.eqb c "*" then (XStar a, s')
                   else if Ascii.eqb c "+" then (XSeq a (XStar a), s') else (a, s)
  | EmptyString => (a, s)
  end.
Fixpoint rx_alts (n : nat) (s : string) : rx * string :=
  match n with
  | 0 => (XNil, s)
  | S n =>
      let '(a, s) := rx_seq n s in
      match s with
      | String c s' => if Ascii.eqb c "|" then let '(b, s) := rx_alts n s' in (XOr a b, s) else (a, s)
      | EmptyString => (a, s)
      end
  end
with rx_seq (n : nat) (s : string) : rx * string :=
  match n, s with
  | S n, String c s' =>
      if Ascii.eqb c "|" || Ascii.eqb c ")" then (XNil, s)
      else
        let '(a, r) :=
          if Ascii.eqb c "(" then let '(a, r) := rx_alts n s' in (a, substring 1 (String.length r) r)
          else if Ascii.eqb c "[" then
            match s' with
            | String d s'' => if Ascii.eqb d "^" then let '(l, r) := rx_ranges n s'' in (XSet true l, r)
                              else let '(l, r) := rx_ranges n s' in (XSet false l, r)
            | EmptyString => (XNil, s')
            end
          else if Ascii.eqb c c_back then
            match s' with String d s'' => (XSet false [(char_code d, char_code d)], s'') | EmptyString => (XNil, s') end
          else (XSet false [(char_code c, char_code c)], s') in
        let '(a, r) := rx_post a r in
        let '(b, r) := rx_seq n r in
        (XSeq a b, r)
  | _, _ => (XNil, s)
  end.
(** An expression, between slashes or not, with what is left of the text. *)
Definition rx_of (s : string) : rx * string :=
  let s := if prefix "/" s then substring 1 (String.length s - 2) s else s in rx_alts 100 s.
(** The expressions in the documentation of src/literal.rs and of identifiers: those with a set of characters. *)
Definition doc_regex (d : string * list string) : list (string * string) :=
  flat_map (fun l => match ticked l with
                     | Some (a, _) => if (prefix "/// Parses" l || prefix "/// Follow" l) && occurs "[" a && (occurs "]*" a || occurs "]+" a) then [(fst d, a)] else []
                     | None => []
                     end) (snd d).
Definition regexes : list (string * string) := Eval vm_compute in
  flat_map doc_regex (flat_map (fun f => file_docs (snd f)) sources).

(** ** What they mean *)
Lemma m_set neg l s : Matches (XSet neg l) s <-> exists c, s = [c] /\ in_ranges c l = negb neg.
Proof. split; [intros H; inversion H; subst; eauto|intros (c & -> & H); constructor; exact H]. Qed.
Lemma m_nil s : Matches XNil s <-> s = [].
Proof. split; [intros H; inversion H; reflexivity|intros ->; constructor]. Qed.
Lemma m_seq a b s : Matches (XSeq a b) s <-> exists x y, s = x ++ y /\ Matches a x /\ Matches b y.
Proof. split; [intros H; inversion H; subst; eauto|intros (x & y & -> & H1 & H2); constructor; assumption]. Qed.
Lemma m_end a s : Matches (XSeq a XNil) s <-> Matches a s.
Proof.
  rewrite m_seq. split; [intros (x & y & -> & H & K); apply m_nil in K as ->; rewrite app_nil_r; exact H|].
  intros H. exists s, []. rewrite app_nil_r. split; [reflexivity|]. split; [exact H|constructor].
Qed.
Lemma m_or a b s : Matches (XOr a b) s <-> Matches a s \/ Matches b s.
Proof. split; [intros H; inversion H; subst; auto|intros [H|H]; [apply Mt_left|apply Mt_right]; exact H]. Qed.
Lemma m_opt a s : Matches (XOr a XNil) s <-> Matches a s \/ s = [].
Proof. rewrite m_or, m_nil. reflexivity. Qed.
Lemma m_star neg l s : Matches (XStar (XSet neg l)) s <-> Forall (fun c => in_ranges c l = negb neg) s.
Proof.
  split.
  - intros H. remember (XStar (XSet neg l)) as a eqn:E. induction H; try discriminate E; [constructor|].
    injection E as ->. apply m_set in H as (c & -> & Hc). constructor; auto.
  - intros H. induction H; [constructor|]. change (x :: l0) with ([x] ++ l0). constructor; [constructor; exact H|exact IHForall].
Qed.
Lemma m_plus neg l s : Matches (XSeq (XSet neg l) (XStar (XSet neg l))) s <-> s <> [] /\ Forall (fun c => in_ranges c l = negb neg) s.
Proof.
  rewrite m_seq. split.
  - intros (x & y & -> & H & K). apply m_set in H as (c & -> & Hc). apply m_star in K. split; [discriminate|]. constructor; assumption.
  - intros [H K]. destruct s as [|c s]; [congruence|]. inversion K; subst. exists [c], s. split; [reflexivity|]. split; [constructor; assumption|apply m_star; assumption].
Qed.
Lemma forall_iff (P Q : N -> Prop) s : (forall c, P c <-> Q c) -> (Forall P s <-> Forall Q s).
Proof. intros H. rewrite !Forall_forall. split; intros K c Hc; apply H, K, Hc. Qed.
Ltac ranges := cbn [in_ranges existsb fst snd negb orb]; rewrite ?orb_false_r, ?orb_true_iff, ?orb_false_iff, ?andb_true_iff, ?N.leb_le.
Definition one (k : N) : rx := XSet false [(k, k)].
Lemma m_one k s : Matches (one k) s <-> s = [k].
Proof.
  unfold one. rewrite m_set. split; [intros (c & -> & H)|intros ->; exists k; split; [reflexivity|]]; revert H || idtac; ranges.
  - intros. f_equal. lia.
  - lia.
Qed.
Definition two (j k : N) : rx := XSet false [(j, j); (k, k)].
Lemma m_two j k s : Matches (two j k) s <-> s = [j] \/ s = [k].
Proof.
  unfold two. rewrite m_set. split.
  - intros (c & -> & H). revert H. ranges. intros [H|H]; [left|right]; f_equal; lia.
  - intros [->| ->]; eexists; (split; [reflexivity|]); ranges; lia.
Qed.
Definition digits_ : rx := XStar (XSet false [(48%N, 57%N)]).
Lemma m_digits s : Matches digits_ s <-> Forall digit s.
Proof. unfold digits_. rewrite m_star. apply forall_iff. intros c. ranges. unfold digit. tauto. Qed.
Definition digits1 : rx := XSeq (XSet false [(48%N, 57%N)]) (XStar (XSet false [(48%N, 57%N)])).
Lemma m_digits1 s : Matches digits1 s <-> s <> [] /\ Forall digit s.
Proof. unfold digits1. rewrite m_plus. apply and_iff_compat_l. apply forall_iff. intros c. ranges. unfold digit. tauto. Qed.
Definition sign : rx := XOr (one 45) XNil.
Lemma m_sign s : Matches sign s <-> Sign s.
Proof. unfold sign, Sign. rewrite m_opt, m_one. tauto. Qed.

(** The regular expressions and the lexemes of Spec.v. *)
Definition regex_of (n : string) : rx := fst (rx_of (match find (fun x => String.eqb n (fst x)) regexes with Some (_, s) => s | None => "" end)).
Lemma rx_dec s : Matches (regex_of "DecLit") s <-> DecLex s.
Proof.
  change (regex_of "DecLit") with (XSeq sign (XSeq (XSet false [(49%N, 57%N)]) (XSeq digits_ XNil))). unfold DecLex. rewrite m_seq. split.
  - intros (m & y & -> & Hm & H). apply m_sign in Hm. apply m_seq in H as (d & w & -> & Hd & Hw). apply m_end, m_digits in Hw.
    apply m_set in Hd as (c & -> & Hc). exists m, c, w. split; [reflexivity|]. split; [exact Hm|]. split; [|exact Hw]. revert Hc. ranges. tauto.
  - intros (m & d & w & -> & Hm & Hd & Hw). exists m, (d :: w). split; [reflexivity|]. split; [apply m_sign; exact Hm|].
    apply m_seq. exists [d], w. split; [reflexivity|]. split; [|apply m_end, m_digits; exact Hw]. constructor. ranges. exact Hd.
Qed.
Lemma rx_oct s : Matches (regex_of "OctLit") s <-> OctLex s.
Proof.
  change (regex_of "OctLit") with (XSeq sign (XSeq (one 48) (XSeq (XStar (XSet false [(48%N, 55%N)])) XNil))). unfold OctLex. rewrite m_seq.
  assert (K : forall w, Matches (XStar (XSet false [(48%N, 55%N)])) w <-> Forall octdigit w).
  { intros w. rewrite m_star. apply forall_iff. intros c. ranges. unfold octdigit. tauto. }
  split.
  - intros (m & y & -> & Hm & H). apply m_sign in Hm. apply m_seq in H as (d & w & -> & Hd & Hw). apply m_end, K in Hw.
    apply m_one in Hd as ->. exists m, w. auto.
  - intros (m & w & -> & Hm & Hw). exists m, (48%N :: w). split; [reflexivity|]. split; [apply m_sign; exact Hm|].
    apply m_seq. exists [48%N], w. split; [reflexivity|]. split; [apply m_one; reflexivity|apply m_end, K; exact Hw].
Qed.
Definition exponent : rx := XSeq (two 69 101) (XSeq (XOr (two 43 45) XNil) (XSeq digits1 XNil)).
Lemma m_exponent s : Matches exponent s <-> ExpLex s.
Proof.
  unfold exponent, ExpLex. rewrite m_seq. split.
  - intros (e & y & -> & He & H). apply m_seq in H as (g & w & -> & Hg & Hw). apply m_end, m_digits1 in Hw as [Hw Hd]. apply m_opt in Hg. rewrite m_two in Hg.
    apply m_two in He. destruct He as [-> | ->]; eexists _, g, w; (split; [reflexivity|]); tauto.
  - intros (e & g & w & -> & He & Hg & Hw & Hd). exists [e], (g ++ w). split; [reflexivity|]. split; [apply m_two; destruct He as [-> | ->]; auto|].
    apply m_seq. exists g, w. split; [reflexivity|]. split; [apply m_opt; rewrite m_two; tauto|apply m_end, m_digits1; auto].
Qed.
Lemma rx_float s : Matches (regex_of "FloatValueLit") s <-> FloatLex s.
Proof.
  change (regex_of "FloatValueLit") with
    (XSeq sign (XSeq (XOr (XSeq (XOr (XSeq digits1 (XSeq (one 46) (XSeq digits_ XNil))) (XSeq digits_ (XSeq (one 46) (XSeq digits1 XNil))))
                                (XSeq (XOr exponent XNil) XNil))
                          (XSeq digits1 exponent)) XNil)).
  unfold FloatLex. rewrite m_seq.
  enough (K : forall b, Matches (XOr (XSeq (XOr (XSeq digits1 (XSeq (one 46) (XSeq digits_ XNil))) (XSeq digits_ (XSeq (one 46) (XSeq digits1 XNil))))
                                (XSeq (XOr exponent XNil) XNil))
                          (XSeq digits1 exponent)) b <-> FloatBody b).
  { split; intros (m & b & H1 & H2 & H3); exists m, b; (split; [exact H1|]); rewrite ?m_sign, m_end, K in *; auto. }
  intros b. rewrite m_or. unfold FloatBody. split.
  - intros [H|H].
    + left. apply m_seq in H as (y & x & -> & Hy & Hx). apply m_end, m_opt in Hx. rewrite m_exponent in Hx. apply m_or in Hy. destruct Hy as [Hy|Hy];
      apply m_seq in Hy as (w1 & y' & -> & H1 & Hy); apply m_seq in Hy as (d & w2 & -> & Hd & H2); apply m_one in Hd as ->; rewrite m_end in H2;
      rewrite ?m_digits1, ?m_digits in H1; rewrite ?m_digits1, ?m_digits in H2; exists w1, w2, x; cbn [app]; rewrite <- app_assoc; cbn [app]; tauto.
    + right. apply m_seq in H as (w & x & -> & Hw & Hx). apply m_digits1 in Hw. apply m_exponent in Hx. exists w, x. tauto.
  - intros [(w1 & w2 & x & -> & H1 & H2 & Hn & Hx)|(w & x & -> & Hn & Hw & Hx)].
    + left. apply m_seq. exists (w1 ++ 46%N :: w2), x. split; [rewrite <- app_assoc; reflexivity|]. split; [|apply m_end, m_opt; rewrite m_exponent; tauto].
      apply m_or. destruct Hn as [Hn|Hn]; [left|right]; apply m_seq; exists w1, (46%N :: w2); (split; [reflexivity|]);
      (split; [first [apply m_digits1; auto|apply m_digits; auto]|]); apply m_seq; exists [46%N], w2; (split; [reflexivity|]); (split; [apply m_one; reflexivity|]); apply m_end;
      first [apply m_digits; exact H2|apply m_digits1; auto].
    + right. apply m_seq. exists w, x. split; [reflexivity|]. split; [apply m_digits1; auto|apply m_exponent; exact Hx].
Qed.
Lemma rx_string s : Matches (regex_of "StringLit") s <-> exists b, s = 34%N :: b ++ [34%N] /\ ~ In 34%N b.
Proof.
  change (regex_of "StringLit") with (XSeq (one 34) (XSeq (XStar (XSet true [(34%N, 34%N)])) (XSeq (one 34) XNil))).
  assert (K : forall w, Matches (XStar (XSet true [(34%N, 34%N)])) w <-> ~ In 34%N w).
  { intros w. rewrite m_star, Forall_forall. cbn [in_ranges existsb fst snd negb orb]. split.
    - intros H Hc. specialize (H _ Hc). discriminate H.
    - intros H c Hc. rewrite orb_false_r. destruct (N.leb_spec 34 c), (N.leb_spec c 34); try reflexivity. exfalso. apply H. replace 34%N with c by lia. exact Hc. }
  rewrite m_seq. split.
  - intros (q & y & -> & Hq & H). apply m_one in Hq as ->. apply m_seq in H as (b & q & -> & Hb & Hq). apply m_end, m_one in Hq as ->. apply K in Hb. exists b. auto.
  - intros (b & -> & Hb). exists [34%N], (b ++ [34%N]). split; [reflexivity|]. split; [apply m_one; reflexivity|]. apply m_seq. exists b, [34%N].
    split; [reflexivity|]. split; [apply K; exact Hb|apply m_end, m_one; reflexivity].
Qed.
Lemma rx_ident s : Matches (regex_of "Identifier") s <-> exists u v, s = u ++ v /\ (u = [] \/ u = [95%N]) /\ NameLex v.
Proof.
  change (regex_of "Identifier") with
    (XSeq (XOr (one 95) XNil) (XSeq (XSet false [(65%N, 90%N); (97%N, 122%N)])
       (XSeq (XStar (XSet false [(48%N, 57%N); (65%N, 90%N); (95%N, 95%N); (97%N, 122%N); (45%N, 45%N)])) XNil))).
  assert (K : forall w, Matches (XStar (XSet false [(48%N, 57%N); (65%N, 90%N); (95%N, 95%N); (97%N, 122%N); (45%N, 45%N)])) w <-> Forall name_char w).
  { intros w. rewrite m_star. apply forall_iff. intros c. ranges. unfold name_char, letter, digit. lia. }
  unfold NameLex. rewrite m_seq. split.
  - intros (u & y & -> & Hu & H). apply m_opt in Hu. rewrite m_one in Hu. apply m_seq in H as (d & w & -> & Hd & Hw). apply m_end, K in Hw.
    apply m_set in Hd as (c & -> & Hc). exists u, (c :: w). split; [reflexivity|]. split; [tauto|]. exists c, w. split; [reflexivity|]. split; [|exact Hw].
    revert Hc. ranges. unfold letter. tauto.
  - intros (u & v & -> & Hu & c & w & -> & Hc & Hw). exists u, (c :: w). split; [reflexivity|]. split; [apply m_opt; rewrite m_one; tauto|].
    apply m_seq. exists [c], w. split; [reflexivity|]. split; [|apply m_end, K; exact Hw]. constructor. ranges. exact Hc.
Qed.

(** ** What the types read *)
(** [Runs] with the value. *)
Definition RunsTo (t : rty) (s rest : text) (v : value) : Prop :=
  exists N, forall n, N <= n -> call n (CParse t) [VStr s] = Val (VCon "Ok" [VTup [VStr rest; v]]).
Lemma RunsTo_exact t A P enc s r v : ImplFor t A P enc -> (RunsTo t s r v <-> exists a, P s = Ok r a /\ v = enc a).
Proof.
  intros H. destruct (implements_source _ _ _ _ H s) as [N HN]. split.
  - intros (N' & K). specialize (HN (N + N') ltac:(lia)). rewrite (K (N + N')) in HN by lia. destruct (P s) as [r' a|e|]; cbn in HN; try discriminate HN.
    injection HN as -> ->. eauto.
  - intros (a & E & ->). rewrite E in HN. exists N. exact HN.
Qed.
(** What a value has of the text that was read: an identifier drops an underscore, a string its quotes. *)
Definition content (n : string) (x : text) : text :=
  if String.eqb n "Identifier" then match x with 95%N :: y => y | _ => x end
  else if String.eqb n "StringLit" then removelast (tl x)
  else x.
(** [x] is the longest beginning of the text after the blanks that matches. *)
Definition Lexes (n : string) (e : rx) (s r : text) (v : value) : Prop := exists w x w',
  s = w ++ x ++ w' ++ r /\ Blank w /\ Longest (Matches e) (x ++ w' ++ r) x (w' ++ r) /\ Blank w' /\ NoBlank r /\
  v = VData n "" [("0", VStr (content n x))].
Lemma Longest_iff (P Q : text -> Prop) i s r : (forall x, P x <-> Q x) -> Longest P i s r <-> Longest Q i s r.
Proof. intros H. unfold Longest. rewrite H. split; intros (A & B & C); (split; [exact A|split; [exact B|]]); intros s' r' E K; apply (C s' r' E), H, K. Qed.
Lemma num_lexes n (P : parser text text) enc e (Q : text -> Prop) :
  ImplFor (Ty n []) text P enc -> (forall x, enc x = VData n "" [("0", VStr x)]) -> (forall x, content n x = x) ->
  (forall x, Matches e x <-> Q x) ->
  (forall i r s, P i = Ok r s <-> exists w w', i = w ++ s ++ w' ++ r /\ Blank w /\ Longest Q (s ++ w' ++ r) s (w' ++ r) /\ Blank w' /\ NoBlank r) ->
  forall s r v, RunsTo (Ty n []) s r v <-> Lexes n e s r v.
Proof.
  intros HI He Hc HQ HP s r v. rewrite (RunsTo_exact _ _ _ _ _ _ _ HI). unfold Lexes. split.
  - intros (a & E & ->). apply HP in E as (w & w' & E & Hw & HL & Hw' & Hr). exists w, a, w'. rewrite Hc, He. apply (Longest_iff _ _ _ _ _ HQ) in HL. auto 8.
  - intros (w & x & w' & E & Hw & HL & Hw' & Hr & ->). exists x. rewrite Hc, He. split; [|reflexivity]. apply HP. exists w, w'.
    apply (Longest_iff _ _ _ _ _ HQ) in HL. auto.
Qed.
Lemma string_lexes s r v : RunsTo (Ty "StringLit" []) s r v <-> Lexes "StringLit" (regex_of "StringLit") s r v.
Proof.
  assert (HI : ImplFor (Ty "StringLit" []) _ p_StringLit enc_StringLit).
  { exact (Imp_Modelled _ _ _ _ M_StringLit). }
  rewrite (RunsTo_exact _ _ _ _ _ _ _ HI). unfold Lexes.
  assert (Hc : forall b, content "StringLit" (34%N :: b ++ [34%N]) = b).
  { intros b. cbn [content String.eqb Ascii.eqb Bool.eqb tl]. apply removelast_last. }
  split.
  - intros (a & E & ->). apply p_StringLit_ok in E as (w & w' & -> & Hw & Ha & Hw' & Hr). exists w, (34%N :: a ++ [34%N]), w'. rewrite Hc.
    split; [cbn [app]; rewrite <- app_assoc; reflexivity|]. split; [exact Hw|]. split; [|auto].
    split; [reflexivity|]. split; [apply rx_string; eauto|]. intros x y E Hx. apply rx_string in Hx as (b & -> & Hb).
    cbn [app] in E. injection E as E. rewrite <- !app_assoc in E. cbn [app] in E.
    assert (length b = length a); [|cbn [length]; rewrite !app_length; lia].
    clear -E Ha Hb. revert b E Hb. induction a as [|c a IH]; intros [|d b] E Hb; cbn [app] in E; [reflexivity|..].
    + injection E as <- _. exfalso. apply Hb. left. reflexivity.
    + injection E as -> _. exfalso. apply Ha. left. reflexivity.
    + injection E as <- E. cbn [length]. f_equal. apply IH; [intros K; apply Ha; right; exact K|exact E|intros K; apply Hb; right; exact K].
  - intros (w & x & w' & -> & Hw & (_ & Hx & _) & Hw' & Hr & ->). apply rx_string in Hx as (b & -> & Hb). rewrite Hc. exists b. split; [|reflexivity].
    apply p_StringLit_ok. exists w, w'. split; [cbn [app]; rewrite <- app_assoc; reflexivity|]. auto.
Qed.
Lemma name_longest u v t : (u = [] \/ u = [95%N]) -> NameLex v ->
  (name_ends t <-> Longest (Matches (regex_of "Identifier")) ((u ++ v) ++ t) (u ++ v) t).
Proof.
  intros Hu Hv. split.
  - intros He. split; [reflexivity|]. split; [apply rx_ident; eauto|]. intros x y E Hx. apply rx_ident in Hx as (u' & v' & -> & Hu' & Hv').
    assert (u' = u) as ->.
    { destruct Hv as (c & z & -> & Hc & _), Hv' as (c' & z' & -> & Hc' & _).
      destruct Hu as [-> | ->], Hu' as [-> | ->]; try reflexivity; cbn [app] in E; injection E as E _; subst; unfold letter in *; lia. }
    rewrite <- !app_assoc in E. apply app_inv_head in E. rewrite !app_length.
    destruct Hv' as (c & z & -> & Hc & Hz). destruct Hv as (c0 & z0 & -> & _ & _). cbn [app] in E. injection E as _ E. cbn [length].
    enough (length z <= length z0) by lia. clear -E Hz He. revert z0 E. induction Hz as [|d z Hd Hz IH]; intros [|d0 z0] E; cbn [length]; try lia.
    + cbn [app] in E. exfalso. apply (He _ _ E). exact Hd.
    + cbn [app] in E. injection E as _ E. specialize (IH _ E). lia.
  - intros (_ & _ & H) c t' -> Hc. specialize (H (u ++ v ++ [c]) t'). rewrite <- !app_assoc in H. specialize (H eq_refl).
    rewrite !app_length in H. cbn [length] in H. enough (length u + (length v + 1) <= length u + length v) by lia. apply H. apply rx_ident. exists u, (v ++ [c]).
    split; [reflexivity|]. split; [exact Hu|]. destruct Hv as (a & z & -> & Ha & Hz). exists a, (z ++ [c]). split; [reflexivity|]. split; [exact Ha|].
    apply Forall_app. auto.
Qed.
Lemma ident_lexes s r v : RunsTo (Ty "Identifier" []) s r v <-> Lexes "Identifier" (regex_of "Identifier") s r v.
Proof.
  assert (HI : ImplFor (Ty "Identifier" []) _ p_Identifier enc_Identifier).
  { exact (Imp_Modelled _ _ _ _ M_Identifier). }
  rewrite (RunsTo_exact _ _ _ _ _ _ _ HI). unfold Lexes.
  assert (Hc : forall u b, u = [] \/ u = [95%N] -> NameLex b -> content "Identifier" (u ++ b) = b).
  { intros u b [-> | ->] (c & z & -> & Hc & _); cbn [content String.eqb Ascii.eqb Bool.eqb app]; [|reflexivity].
    destruct (N.eq_dec c 95) as [->|E]; [unfold letter in Hc; lia|]. clear Hc. destruct c as [|p]; [reflexivity|].
    do 7 (try (destruct p as [p|p|]; try reflexivity)); congruence. }
  split.
  - intros (a & E & ->). apply p_Identifier_ok in E as (w & u & w' & -> & Hw & Hu & Ha & He & Hw' & Hr). exists w, (u ++ a), w'. rewrite (Hc _ _ Hu Ha).
    split; [rewrite <- app_assoc; reflexivity|]. split; [exact Hw|]. split; [|auto]. apply (name_longest _ _ _ Hu Ha). exact He.
  - intros (w & x & w' & -> & Hw & HL & Hw' & Hr & ->). pose proof HL as (_ & Hx & _). apply rx_ident in Hx as (u & b & -> & Hu & Hb). rewrite (Hc _ _ Hu Hb). exists b.
    split; [|reflexivity]. apply p_Identifier_ok. exists w, u, w'. split; [rewrite <- app_assoc; reflexivity|].
    apply (name_longest _ _ _ Hu Hb) in HL. auto 8.
Qed.
(** All of them but that of [HexLit], which is refuted (C16): it has [+] for [*], and a parenthesis. *)
Lemma regexes_hold n f e s r v : In (n, f) regexes -> n <> "HexLit" -> rx_of f = (e, "") ->
  (RunsTo (Ty n []) s r v <-> Lexes n e s r v).
Proof.
  intros Hx Hn E. unfold regexes in Hx. cbn [In] in Hx. repeat destruct Hx as [Hx|Hx]; [..|destruct Hx]; injection Hx as <- <-.
  - replace e with (regex_of "Identifier") by (vm_compute in E |- *; injection E as <-; reflexivity). apply ident_lexes.
  - replace e with (regex_of "DecLit") by (vm_compute in E |- *; injection E as <-; reflexivity).
    apply (num_lexes _ _ _ _ _ Imp_DecLit (fun x => eq_refl) (fun x => eq_refl) rx_dec p_DecLit_longest).
  - congruence.
  - replace e with (regex_of "OctLit") by (vm_compute in E |- *; injection E as <-; reflexivity).
    apply (num_lexes _ _ _ _ _ Imp_OctLit (fun x => eq_refl) (fun x => eq_refl) rx_oct p_OctLit_longest).
  - replace e with (regex_of "StringLit") by (vm_compute in E |- *; injection E as <-; reflexivity). apply string_lexes.
  - replace e with (regex_of "FloatValueLit") by (vm_compute in E |- *; injection E as <-; reflexivity).
    apply (num_lexes _ _ _ _ _ Imp_FloatValueLit (fun x => eq_refl) (fun x => eq_refl) rx_float p_FloatValueLit_longest).
Qed.
Lemma regexes_read : map fst regexes = ["Identifier"; "DecLit"; "HexLit"; "OctLit"; "StringLit"; "FloatValueLit"] /\
  map (fun x => snd (rx_of (snd x))) regexes = [""; ""; ")"; ""; ""; ""].
Proof. vm_compute. auto. Qed.
Lemma hex_regex_refuted : exists f s r v, In ("HexLit", f) regexes /\ RunsTo (Ty "HexLit" []) s r v /\ ~ Lexes "HexLit" (fst (rx_of f)) s r v.
Proof.
  exists "-?0[Xx][0-9A-Fa-f]+)", (str "0x"), [], (enc_HexLit (str "0x")). split; [unfold regexes; cbn [In]; tauto|]. split.
  - apply (RunsTo_exact _ _ _ _ _ _ _ Imp_HexLit). exists (str "0x"). split; [vm_compute; reflexivity|reflexivity].
  - intros (w & x & w' & E & Hw & (_ & Hx & _) & Hw' & Hr & Hv).
    change (fst (rx_of "-?0[Xx][0-9A-Fa-f]+)")) with (XSeq sign (XSeq (one 48) (XSeq (two 88 120)
      (XSeq (XSeq (XSet false [(48%N, 57%N); (65%N, 70%N); (97%N, 102%N)]) (XStar (XSet false [(48%N, 57%N); (65%N, 70%N); (97%N, 102%N)]))) XNil)))) in Hx.
    apply m_seq in Hx as (m & y & -> & _ & H). apply m_seq in H as (z & y' & -> & Hz & H). apply m_one in Hz as ->.
    apply m_seq in H as (k & y & -> & Hk & H). apply m_end, m_plus in H as [Hy _].
    assert (length (str "0x") = 2) as L by reflexivity. rewrite E in L. rewrite !app_length in L.
    destruct y as [|]; [congruence|]. apply m_two in Hk as [-> | ->]; cbn [length] in L; lia.
Qed.
Lemma regexes_from : regexes = flat_map doc_regex (flat_map (fun f => file_docs (snd f)) sources).
Proof. vm_cast_no_check (eq_refl regexes). Qed.
