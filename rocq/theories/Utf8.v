(** * Parsing bytes is parsing the characters that they encode *)
From Coq Require Import String Ascii NArith ZArith Arith Bool List Lia.
From Verif Require Import Nom Lex Bytes Spec LexFacts NumFacts TokFacts.
Import ListNotations.
Open Scope list_scope.

(** ** UTF-8 *)

(** Rust's [char]: a Unicode scalar value. *)
Definition scalar (c : char) : Prop := (c < 55296 \/ 57344 <= c < 1114112)%N.
Definition Scalars (s : text) : Prop := Forall scalar s.
Lemma Scalars_dec s : forallb (fun c => N.ltb c 55296 || N.leb 57344 c && N.ltb c 1114112) s = true -> Scalars s.
Proof.
  rewrite forallb_forall. intros H. apply Forall_forall. intros c Hc. apply H in Hc. unfold scalar.
  apply orb_true_iff in Hc as [Hc|Hc]; [apply N.ltb_lt in Hc; auto|]. apply andb_true_iff in Hc as [H1 H2].
  apply N.leb_le in H1. apply N.ltb_lt in H2. auto.
Qed.

Definition between (lo hi x : N) : Prop := (lo <= x <= hi)%N.
(** The well-formed byte sequences of one character (table 3-7 of the Unicode standard). *)
Inductive Utf8Char : bytes -> Prop :=
| U1 x : between 0 127 x -> Utf8Char [x]
| U2 x y : between 194 223 x -> between 128 191 y -> Utf8Char [x; y]
| U3a y z : between 160 191 y -> between 128 191 z -> Utf8Char [224%N; y; z]
| U3b x y z : between 225 236 x \/ between 238 239 x -> between 128 191 y -> between 128 191 z -> Utf8Char [x; y; z]
| U3c y z : between 128 159 y -> between 128 191 z -> Utf8Char [237%N; y; z]
| U4a y z w : between 144 191 y -> between 128 191 z -> between 128 191 w -> Utf8Char [240%N; y; z; w]
| U4b x y z w : between 241 243 x -> between 128 191 y -> between 128 191 z -> between 128 191 w -> Utf8Char [x; y; z; w]
| U4c y z w : between 128 143 y -> between 128 191 z -> between 128 191 w -> Utf8Char [244%N; y; z; w].
(** The contents of a [&str]. *)
Inductive Utf8 : bytes -> Prop :=
| Utf8_nil : Utf8 []
| Utf8_app c b : Utf8Char c -> Utf8 b -> Utf8 (c ++ b).

Ltac Zify.zify_post_hook ::= Z.to_euclidean_division_equations.

Lemma utf8_cases c : scalar c ->
  ((c < 128)%N /\ utf8 c = [c]) \/
  (exists x y, utf8 c = [192 + x; 128 + y]%N /\ (c = x * 64 + y /\ 2 <= x < 32 /\ y < 64)%N) \/
  (exists x y z, utf8 c = [224 + x; 128 + y; 128 + z]%N /\ (c = x * 4096 + y * 64 + z /\ x < 16 /\ y < 64 /\ z < 64 /\ 2048 <= c < 65536)%N) \/
  (exists x y z w, utf8 c = [240 + x; 128 + y; 128 + z; 128 + w]%N /\
    (c = x * 262144 + y * 4096 + z * 64 + w /\ x < 5 /\ y < 64 /\ z < 64 /\ w < 64 /\ 65536 <= c)%N).
Proof.
  unfold scalar, utf8. intros H.
  destruct (N.ltb_spec c 128); [left; auto|right].
  destruct (N.ltb_spec c 2048); [left|right].
  { exists (c / 64)%N, (c mod 64)%N. split; auto. repeat split; lia. }
  destruct (N.ltb_spec c 65536); [left|right].
  { exists (c / 4096)%N, ((c / 64) mod 64)%N, (c mod 64)%N. split; auto. repeat split; try lia. }
  exists (c / 262144)%N, ((c / 4096) mod 64)%N, ((c / 64) mod 64)%N, (c mod 64)%N. split; auto. repeat split; try lia.
Qed.
Lemma ltb_f a b : (b <= a)%N -> N.ltb a b = false. Proof. apply N.ltb_ge. Qed.
Lemma ltb_t a b : (a < b)%N -> N.ltb a b = true. Proof. apply N.ltb_lt. Qed.
Lemma next_char_utf8 c r : scalar c -> next_char (utf8 c ++ r) = Some (c, r).
Proof.
  intros H. destruct (utf8_cases c H) as [[H1 ->]|[(x & y & -> & H1)|[(x & y & z & -> & H1)|(x & y & z & w & -> & H1)]]]; cbn [app next_char].
  - rewrite ltb_t; auto.
  - rewrite ltb_f, ltb_t by lia. do 2 f_equal. lia.
  - rewrite !ltb_f, ltb_t by lia. do 2 f_equal. lia.
  - rewrite !ltb_f by lia. do 2 f_equal. lia.
Qed.
Lemma len_utf8_ok c : length (utf8 c) = len_utf8 c.
Proof. unfold utf8, len_utf8. repeat destruct (N.ltb _ _); auto. Qed.
Lemma utf8_nonempty c : 1 <= length (utf8 c).
Proof. rewrite len_utf8_ok. unfold len_utf8. repeat destruct (N.ltb _ _); lia. Qed.
Lemma utf8_first c : exists x r, utf8 c = x :: r /\ (x < 128 \/ 192 <= x)%N /\ x = first_byte c.
Proof.
  unfold utf8, first_byte. destruct (N.ltb_spec c 128); [eauto 6|]. destruct (N.ltb c 2048); [|destruct (N.ltb c 65536)];
    eexists _, _; repeat split; lia.
Qed.
Lemma utf8_ascii c : (c < 128)%N -> utf8 c = [c].
Proof. intros H. unfold utf8. rewrite ltb_t; auto. Qed.
Lemma utf8_high c : scalar c -> (128 <= c)%N -> Forall (fun x => 128 <= x)%N (utf8 c).
Proof.
  intros H Hc. destruct (utf8_cases c H) as [[H1 ->]|[(x & y & -> & H1)|[(x & y & z & -> & H1)|(x & y & z & w & -> & H1)]]];
    repeat constructor; lia.
Qed.

(** The standard's table describes exactly the encodings of scalar values. *)
Theorem Utf8Char_exact b : Utf8Char b <-> exists c, scalar c /\ b = utf8 c.
Proof.
  split.
  - assert (K : forall c b', scalar c -> utf8 c = b' -> exists c, scalar c /\ b' = utf8 c) by (intros; subst; eauto).
    destruct 1 as [x H|x y H H0|y z H H0|x y z [H|H] H0 H1|y z H H0|y z w H H0 H1|x y z w H H0 H1 H2|y z w H H0 H1]; unfold between in *.
    + apply (K x); [unfold scalar; lia|apply utf8_ascii; lia].
    + apply (K ((x - 192) * 64 + (y - 128))%N); [unfold scalar; lia|]. unfold utf8.
      rewrite ltb_f, ltb_t by lia. repeat f_equal; lia.
    + apply (K ((y - 128) * 64 + (z - 128))%N); [unfold scalar; lia|]. unfold utf8.
      rewrite !ltb_f, ltb_t by lia. repeat f_equal; lia.
    + apply (K ((x - 224) * 4096 + (y - 128) * 64 + (z - 128))%N); [unfold scalar; lia|]. unfold utf8.
      rewrite !ltb_f, ltb_t by lia. repeat f_equal; lia.
    + apply (K ((x - 224) * 4096 + (y - 128) * 64 + (z - 128))%N); [unfold scalar; lia|]. unfold utf8.
      rewrite !ltb_f, ltb_t by lia. repeat f_equal; lia.
    + apply (K (13 * 4096 + (y - 128) * 64 + (z - 128))%N); [unfold scalar; lia|]. unfold utf8.
      rewrite !ltb_f, ltb_t by lia. repeat f_equal; lia.
    + apply (K ((y - 128) * 4096 + (z - 128) * 64 + (w - 128))%N); [unfold scalar; lia|]. unfold utf8.
      rewrite !ltb_f by lia. repeat f_equal; lia.
    + apply (K ((x - 240) * 262144 + (y - 128) * 4096 + (z - 128) * 64 + (w - 128))%N); [unfold scalar; lia|]. unfold utf8.
      rewrite !ltb_f by lia. repeat f_equal; lia.
    + apply (K (4 * 262144 + (y - 128) * 4096 + (z - 128) * 64 + (w - 128))%N); [unfold scalar; lia|]. unfold utf8.
      rewrite !ltb_f by lia. repeat f_equal; lia.
  - intros (c & H & ->). pose proof H as H'. unfold scalar in H'.
    destruct (utf8_cases c H) as [[H1 ->]|[(x & y & -> & H1)|[(x & y & z & -> & H1)|(x & y & z & w & -> & H1)]]].
    + apply U1. unfold between. lia.
    + apply U2; unfold between; lia.
    + destruct (N.eq_dec x 0) as [->|]; [apply U3a; unfold between; lia|].
      destruct (N.eq_dec x 13) as [->|]; [apply U3c; unfold between; lia|]. apply U3b; unfold between; lia.
    + destruct (N.eq_dec x 0) as [->|]; [apply U4a; unfold between; lia|].
      destruct (N.eq_dec x 4) as [->|]; [apply U4c; unfold between; lia|]. apply U4b; unfold between; lia.
Qed.
Theorem Utf8_exact b : Utf8 b <-> exists s, Scalars s /\ b = encode s.
Proof.
  split.
  - induction 1 as [|c b H _ (s & Hs & ->)]; [exists []; split; auto; constructor|].
    apply Utf8Char_exact in H as (x & Hx & ->). exists (x :: s). split; auto. constructor; auto.
  - intros (s & Hs & ->). induction Hs as [|c s Hc Hs IH]; [constructor|]. cbn [encode flat_map]. constructor; auto.
    apply Utf8Char_exact. eauto.
Qed.

Lemma encode_app a b : encode (a ++ b) = encode a ++ encode b.
Proof. apply flat_map_app. Qed.
Lemma encode_ascii s : Forall (fun c => c < 128)%N s -> encode s = s.
Proof. induction 1 as [|c s Hc Hs IH]; cbn; auto. rewrite utf8_ascii; auto. cbn. fold (encode s). congruence. Qed.
Lemma encode_length s : length s <= length (encode s).
Proof. induction s as [|c s IH]; cbn; auto. rewrite app_length. fold (encode s). pose proof (utf8_nonempty c). lia. Qed.
Lemma encode_inj a : Scalars a -> forall b, Scalars b -> encode a = encode b -> a = b.
Proof.
  induction 1 as [|c a Hc Ha IH]; intros [|d b] Hb E; auto; cbn in E.
  - exfalso. pose proof (utf8_nonempty d). destruct (utf8 d); [cbn in *; lia|discriminate].
  - exfalso. pose proof (utf8_nonempty c). destruct (utf8 c); [cbn in *; lia|discriminate].
  - inversion Hb; subst. fold (encode a) (encode b) in E. apply (f_equal next_char) in E. rewrite !next_char_utf8 in E by auto.
    injection E as -> E. f_equal. auto.
Qed.
Lemma encode_eqb a b : Scalars a -> Scalars b -> text_eqb (encode a) (encode b) = text_eqb a b.
Proof.
  intros Ha Hb. destruct (text_eqb a b) eqn:E.
  - apply text_eqb_spec in E. subst. apply text_eqb_refl.
  - destruct (text_eqb (encode a) (encode b)) eqn:E'; auto. apply text_eqb_spec in E'. apply encode_inj in E'; auto. subst.
    rewrite text_eqb_refl in E. discriminate.
Qed.
Lemma Scalars_app a b : Scalars (a ++ b) <-> Scalars a /\ Scalars b.
Proof. apply Forall_app. Qed.

Lemma chars_fuel_encode s : Scalars s -> forall n, length s <= n -> chars_fuel n (encode s) = s.
Proof.
  induction 1 as [|c s Hc Hs IH]; intros [|n] Hn; cbn in *; try lia; auto.
  fold (encode s). rewrite next_char_utf8 by auto. f_equal. apply IH. lia.
Qed.
Lemma chars_encode s : Scalars s -> chars (encode s) = s.
Proof. intros H. apply chars_fuel_encode; auto. apply encode_length. Qed.

(** ** Cuts between characters *)
Lemma boundary a b : is_char_boundary (encode (a ++ b)) (length (encode a)) = true.
Proof.
  unfold is_char_boundary. rewrite encode_app, app_length. destruct b as [|c b].
  - cbn. rewrite Nat.add_0_r, Nat.eqb_refl, orb_true_r. reflexivity.
  - rewrite nth_error_app2, Nat.sub_diag by auto. destruct (utf8_first c) as (x & r & E & Hx & _). cbn [encode flat_map].
    rewrite E. cbn [app nth_error]. destruct (N.leb_spec 128 x), (N.ltb_spec x 192); cbn; rewrite ?orb_true_r; auto. lia.
Qed.
Lemma slice_from_encode a b : slice_from (length (encode a)) (encode (a ++ b)) = Some (encode b).
Proof.
  unfold slice_from. rewrite boundary, encode_app, skipn_app, skipn_all, Nat.sub_diag. reflexivity.
Qed.
Lemma slice_to_encode a b : slice_to (length (encode a)) (encode (a ++ b)) = Some (encode a).
Proof.
  unfold slice_to. rewrite boundary, encode_app, firstn_app, firstn_all, Nat.sub_diag. cbn. rewrite app_nil_r. reflexivity.
Qed.
Lemma take_split_encode a b : take_split (length (encode a)) (encode (a ++ b)) = Ok (encode b) (encode a).
Proof. unfold take_split. rewrite slice_from_encode, slice_to_encode. reflexivity. Qed.

(** ** The primitive parsers *)
Definition map_res {A B} (g : A -> B) (o : res text A) : res bytes B :=
  match o with
  | Ok r a => Ok (encode r) (g a)
  | Err (Error q k) => Err (Error (encode q) k)
  | Err (Failure q k) => Err (Failure (encode q) k)
  | Err Incomplete => Err Incomplete
  | Diverge => Diverge
  end.
(** On the encoding of a text, [pb] does what [p] does on the text. *)
Definition Enc {A B} (Q : A -> Prop) (g : A -> B) (p : parser text A) (pb : parser bytes B) : Prop :=
  forall s, Scalars s -> pb (encode s) = map_res g (p s) /\ (forall r a, p s = Ok r a -> Scalars r /\ Q a).
Definition any {A} (a : A) : Prop := True.
Definition same {A} (a : A) : A := a.
Notation EncT := (Enc Scalars encode).
Notation EncV := (Enc any same).

Definition Ascii (t : text) : Prop := Forall (fun c => c < 128)%N t.
Definition ascii_b (t : text) : bool := forallb (fun c => N.ltb c 128) t.
Lemma Ascii_dec t : ascii_b t = true -> Ascii t.
Proof. unfold ascii_b. rewrite forallb_forall. intros H. apply Forall_forall. intros c Hc. apply N.ltb_lt. auto. Qed.
Lemma Ascii_Scalars t : Ascii t -> Scalars t.
Proof. unfold Ascii, Scalars. rewrite !Forall_forall. intros H c Hc. specialize (H c Hc). unfold scalar. lia. Qed.

Lemma compare_encode t : Ascii t -> forall s, Scalars s ->
  agree s t && Nat.leb (length t) (length (encode s)) = match strip_prefix t s with Some _ => true | None => false end.
Proof.
  induction 1 as [|x t Hx Ht IH]; intros s Hs.
  - destruct s; reflexivity.
  - inversion Hs as [|y s' Hy Hs']; subst; [reflexivity|]. cbn [agree strip_prefix]. rewrite N.eqb_sym.
    destruct (N.eqb_spec x y) as [->|]; [|reflexivity]. cbn [andb encode flat_map]. rewrite utf8_ascii by auto. cbn. apply IH. auto.
Qed.
Lemma strip_prefix_some t : forall s r, strip_prefix t s = Some r -> s = t ++ r.
Proof.
  induction t as [|x t IH]; intros [|y s] r; cbn; try congruence. destruct (N.eqb_spec x y) as [->|]; [|discriminate].
  intros H. f_equal. auto.
Qed.
Lemma Enc_tag t : Ascii t -> EncT (tag t) (b_tag t).
Proof.
  intros Ht s Hs. unfold b_tag, tag, compare_ok. rewrite chars_encode by auto.
  replace (chars t) with t. 2:{ rewrite <- (encode_ascii t Ht) at 2. symmetry. apply chars_encode, Ascii_Scalars, Ht. }
  rewrite compare_encode by auto. destruct (strip_prefix t s) as [r|] eqn:E.
  - apply strip_prefix_some in E. subst s. apply Scalars_app in Hs as [_ Hr]. split.
    + rewrite <- (encode_ascii t Ht) at 1. apply take_split_encode.
    + intros r' a [= <- <-]. split; auto. apply Ascii_Scalars. auto.
  - split; [reflexivity|discriminate].
Qed.

Lemma span_Scalars f s : Scalars s -> Scalars (fst (span f s)) /\ Scalars (snd (span f s)).
Proof.
  induction 1 as [|c s Hc Hs IH]; cbn; [split; constructor|]. destruct (f c); [|split; cbn; constructor; auto].
  destruct (span f s) as [a b]. cbn in *. destruct IH. split; auto. constructor; auto.
Qed.
Lemma span_app f s : s = fst (span f s) ++ snd (span f s).
Proof. induction s as [|c s IH]; cbn; auto. destruct (f c); auto. destruct (span f s). cbn in *. congruence. Qed.
Lemma find_encode f s : Scalars s -> forall k off, length s <= k ->
  find_fuel k (fun c => negb (f c)) (encode s) off =
  match span f s with (a, []) => None | (a, _ :: _) => Some (off + length (encode a)) end.
Proof.
  induction 1 as [|c s Hc Hs IH]; intros [|k] off Hk; cbn in *; try lia; auto.
  fold (encode s). rewrite next_char_utf8 by auto. destruct (f c); cbn [negb].
  - rewrite IH by lia. destruct (span f s) as [a [|d b]]; auto. cbn [encode flat_map]. rewrite !app_length. fold (encode a). f_equal. lia.
  - cbn. rewrite Nat.add_0_r. reflexivity.
Qed.
Lemma find_char_encode f s : Scalars s -> find_char (fun c => negb (f c)) (encode s) =
  match span f s with (a, []) => None | (a, _ :: _) => Some (length (encode a)) end.
Proof. intros H. unfold find_char. rewrite find_encode; auto. apply encode_length. Qed.
Lemma Enc_take_while f : EncT (take_while f) (b_take_while f).
Proof.
  intros s Hs. unfold b_take_while, take_while. rewrite find_char_encode by auto. pose proof (span_Scalars f s Hs) as H.
  pose proof (span_app f s) as E. destruct (span f s) as [a b]. cbn in *. destruct H as [Ha Hb]. split.
  - rewrite E. destruct b; [rewrite app_nil_r; rewrite <- (app_nil_r a) at 2|]; apply take_split_encode.
  - intros r v [= <- <-]. auto.
Qed.
Lemma Enc_take_while1 f : EncT (take_while1 f) (b_take_while1 f).
Proof.
  intros s Hs. unfold b_take_while1, take_while1. rewrite find_char_encode by auto. pose proof (span_Scalars f s Hs) as H.
  pose proof (span_app f s) as E. destruct (span f s) as [a b]. cbn in *. destruct H as [Ha Hb].
  destruct a as [|c a]; cbn in E; subst s.
  - split; [|discriminate]. destruct b; reflexivity.
  - pose proof (utf8_nonempty c) as Hc. split; [|intros r v [= <- <-]; auto].
    destruct b as [|d b].
    + rewrite app_nil_r. destruct (encode (c :: a)) eqn:E. { cbn in E. destruct (utf8 c); [cbn in Hc; lia|discriminate]. }
      rewrite <- E. rewrite <- (app_nil_r (c :: a)) at 2. apply take_split_encode.
    + change (c :: a ++ d :: b) with ((c :: a) ++ d :: b).
      destruct (length (encode (c :: a))) eqn:E. { cbn in E. rewrite app_length in E. lia. }
      rewrite <- E. apply take_split_encode.
Qed.

Lemma strip_encode t : Ascii t -> forall s, Scalars s -> strip_prefix t (encode s) = option_map encode (strip_prefix t s).
Proof.
  induction 1 as [|x t Hx Ht IH]; intros s Hs; [destruct s; reflexivity|]. inversion Hs as [|y s' Hy Hs']; subst; [reflexivity|].
  cbn [strip_prefix]. destruct (N.ltb_spec y 128) as [Hy'|Hy'].
  - cbn [encode flat_map]. rewrite utf8_ascii by auto. cbn. destruct (N.eqb x y); auto. 
  - pose proof (utf8_high y Hy Hy') as H. destruct (N.eqb_spec x y); [lia|].
    cbn [encode flat_map]. destruct (utf8_first y) as (z & q & E & _). rewrite E in *. cbn.
    inversion H; subst. destruct (N.eqb_spec x z); [lia|reflexivity].
Qed.
Lemma find_bytes_off t : forall b off, find_bytes t b off = option_map (fun n => off + n) (find_bytes t b 0).
Proof.
  induction b as [|x b IH]; intros off; cbn [find_bytes].
  - destruct (strip_prefix t []); cbn; auto.
  - destruct (strip_prefix t (x :: b)); cbn; auto. rewrite IH, (IH 1). destruct (find_bytes t b 0); cbn; auto.
Qed.
Lemma find_bytes_high x t h r off : (x < 128)%N -> Forall (fun y => 128 <= y)%N h ->
  find_bytes (x :: t) (h ++ r) off = find_bytes (x :: t) r (off + length h).
Proof.
  intros Hx H. revert off. induction H as [|y h Hy Hh IH]; intros off; cbn [app length]; [f_equal; lia|].
  cbn [find_bytes strip_prefix]. destruct (N.eqb_spec x y); [lia|]. rewrite IH. f_equal. lia.
Qed.
Lemma find_bytes_encode t : Ascii t -> t <> [] -> forall s, Scalars s ->
  find_bytes t (encode s) 0 = match find_sub t s with Some (a, _) => Some (length (encode a)) | None => None end.
Proof.
  intros Ht Hn. induction 1 as [|c s Hc Hs IH].
  - destruct t; [congruence|]. reflexivity.
  - cbn [find_sub].
    assert (E : strip_prefix t (encode (c :: s)) = option_map encode (strip_prefix t (c :: s))) by (apply strip_encode; auto; constructor; auto).
    destruct (N.ltb_spec c 128) as [Hc'|Hc'].
    + cbn [encode flat_map] in *. rewrite utf8_ascii in * by auto. cbn [app find_bytes] in *. fold (encode s) in *. rewrite E.
      destruct (strip_prefix t (c :: s)); cbn [option_map]; auto. rewrite find_bytes_off, IH.
      destruct (find_sub t s) as [[a b]|]; cbn; auto. rewrite utf8_ascii by auto. reflexivity.
    + destruct t as [|x t]; [congruence|]. inversion Ht; subst. cbn [strip_prefix]. destruct (N.eqb_spec x c); [lia|].
      cbn [encode flat_map]. fold (encode s). rewrite find_bytes_high by auto using utf8_high.
      rewrite find_bytes_off, IH. destruct (find_sub (x :: t) s) as [[a b]|]; cbn; auto. rewrite app_length. reflexivity.
Qed.
Lemma find_sub_app t : forall s a b, find_sub t s = Some (a, b) -> s = a ++ b.
Proof.
  induction s as [|c s IH]; intros a b; cbn [find_sub].
  - destruct (strip_prefix t []); [intros [= <- <-]; auto|discriminate].
  - destruct (strip_prefix t (c :: s)); [intros [= <- <-]; auto|]. destruct (find_sub t s) as [[a' b']|]; [|discriminate].
    intros [= <- <-]. cbn. f_equal. auto.
Qed.
Lemma Enc_take_until t : Ascii t -> t <> [] -> EncT (take_until t) (b_take_until t).
Proof.
  intros Ht Hn s Hs. unfold b_take_until, take_until. rewrite find_bytes_encode by auto.
  destruct (find_sub t s) as [[a b]|] eqn:E; [|split; [reflexivity|discriminate]].
  apply find_sub_app in E. subst s. apply Scalars_app in Hs as [Ha Hb]. split; [apply take_split_encode|].
  intros r v [= <- <-]. auto.
Qed.
Lemma slice_char c s : slice_from (len_utf8 c) (encode (c :: s)) = Some (encode s).
Proof.
  rewrite <- len_utf8_ok. pose proof (slice_from_encode [c] s) as H. cbn [encode flat_map app] in *. rewrite app_nil_r in H. exact H.
Qed.
Lemma next_char_encode c s : scalar c -> next_char (encode (c :: s)) = Some (c, encode s).
Proof. apply next_char_utf8. Qed.
Lemma Enc_one_of cs : EncV (one_of cs) (b_one_of cs).
Proof.
  intros s Hs. unfold b_one_of, one_of. inversion Hs as [|c s' Hc Hs']; subst; [split; [reflexivity|discriminate]|].
  rewrite next_char_encode by auto. destruct (existsb (N.eqb c) cs); [|split; [reflexivity|discriminate]].
  rewrite slice_char. split; [reflexivity|]. intros r a [= <- <-]. split; auto. exact I.
Qed.
Lemma Enc_char c : EncV (pchar c) (b_char c).
Proof.
  intros s Hs. unfold b_char, pchar. inversion Hs as [|d s' Hd Hs']; subst; [split; [reflexivity|discriminate]|].
  rewrite next_char_encode by auto. destruct (N.eqb_spec d c) as [->|]; [|split; [reflexivity|discriminate]].
  rewrite slice_char. split; [reflexivity|]. intros r a [= <- <-]. split; auto. exact I.
Qed.

(** ** Combinators *)
Lemma Enc_ret A B (Q : A -> Prop) (g : A -> B) a : Q a -> Enc Q g (ret a) (ret (g a)).
Proof. intros Ha s Hs. split; [reflexivity|]. intros r v [= <- <-]. auto. Qed.
Lemma Enc_bind A B C D (Q : A -> Prop) (g : A -> B) (Q' : C -> Prop) (h : C -> D) p pb f fb :
  Enc Q g p pb -> (forall a, Q a -> Enc Q' h (f a) (fb (g a))) -> Enc Q' h (bind p f) (bind pb fb).
Proof.
  intros Hp Hf s Hs. unfold bind. destruct (Hp s Hs) as [-> H]. destruct (p s) as [r a|[]|]; cbn; try (split; [reflexivity|discriminate]).
  destruct (H r a eq_refl) as [Hr Ha]. apply Hf; auto.
Qed.
Lemma Enc_map A B (Q : A -> Prop) (g : A -> B) C (f : A -> C) (fb : B -> C) p pb :
  Enc Q g p pb -> (forall a, Q a -> fb (g a) = f a) -> EncV (pmap f p) (pmap fb pb).
Proof. intros Hp Hf. eapply Enc_bind; eauto. intros a Ha. rewrite (Hf a Ha). apply (Enc_ret _ _ any same). exact I. Qed.
Lemma Enc_or A B (Q : A -> Prop) (g : A -> B) p pb q qb : Enc Q g p pb -> Enc Q g q qb -> Enc Q g (alt_or p q) (alt_or pb qb).
Proof.
  intros Hp Hq s Hs. unfold alt_or. destruct (Hp s Hs) as [-> H]. destruct (p s) as [r a|[]|]; cbn; auto; try (split; [reflexivity|discriminate]).
Qed.
Lemma Enc_end A B (Q : A -> Prop) (g : A -> B) : Enc Q g alt_end alt_end.
Proof. intros s Hs. split; [reflexivity|discriminate]. Qed.
Lemma Enc_opt A p pb : @Enc A A any same p pb -> EncV (opt p) (opt pb).
Proof.
  intros Hp s Hs. unfold opt. destruct (Hp s Hs) as [-> H]. destruct (p s) as [r a|[]|]; cbn; try (split; [reflexivity|discriminate]).
  - split; [reflexivity|]. intros r' v [= <- <-]. split; [|exact I]. apply (H r a eq_refl).
  - split; [reflexivity|]. intros r' v [= <- <-]. split; [auto|exact I].
Qed.
Lemma Enc_recognize A B (Q : A -> Prop) (g : A -> B) p pb : Enc Q g p pb -> (forall s r a, p s = Ok r a -> exists x, s = x ++ r) ->
  EncT (recognize p) (b_recognize pb).
Proof.
  intros Hp Hx s Hs. unfold recognize, b_recognize. destruct (Hp s Hs) as [-> H]. specialize (Hx s).
  destruct (p s) as [r a|[]|]; cbn; try (split; [reflexivity|discriminate]).
  destruct (Hx r a eq_refl) as [x ->]. rewrite encode_app, app_length, Nat.add_sub, <- encode_app, slice_to_encode.
  rewrite firstn_app_len. split; [reflexivity|]. apply Scalars_app in Hs as [? ?]. intros r' v [= <- <-]. auto.
Qed.
Lemma Enc_many0_loop A n p pb : @Enc A A any same p pb -> forall acc,
  EncV (fun s => many0_loop text_eqb n p s acc) (fun s => many0_loop text_eqb n pb s acc).
Proof.
  intros Hp. induction n as [|n IH]; intros acc s Hs; cbn [many0_loop]; [split; [reflexivity|discriminate]|].
  destruct (Hp s Hs) as [-> H]. destruct (p s) as [r a|[]|]; cbn [map_res]; try (split; [reflexivity|discriminate]).
  - destruct (H r a eq_refl) as [Hr _]. rewrite encode_eqb by auto. destruct (text_eqb r s); [split; [reflexivity|discriminate]|].
    apply IH; auto.
  - split; [reflexivity|]. intros r' v [= <- <-]. split; auto. exact I.
Qed.
Lemma Enc_sep_loop A S n (q : parser text S) qb p pb : @Enc S S any same q qb -> @Enc A A any same p pb -> forall acc,
  EncV (fun s => sep_loop text_eqb n q p s acc) (fun s => sep_loop text_eqb n qb pb s acc).
Proof.
  intros Hq Hp. induction n as [|n IH]; intros acc s Hs; cbn [sep_loop]; [split; [reflexivity|discriminate]|].
  assert (HS : forall r' (v : list A), Ok s acc = Ok r' v -> Scalars r' /\ any v) by (intros r' v [= <- <-]; split; auto; exact I).
  destruct (Hq s Hs) as [-> H]. destruct (q s) as [r a|[]|]; cbn [map_res]; try (split; [reflexivity|auto; discriminate]).
  destruct (H r a eq_refl) as [Hr _]. rewrite encode_eqb by auto. destruct (text_eqb r s); [split; [reflexivity|discriminate]|].
  destruct (Hp r Hr) as [-> H2]. destruct (p r) as [r2 a2|[]|]; cbn [map_res]; try (split; [reflexivity|auto; discriminate]).
  destruct (H2 r2 a2 eq_refl) as [Hr2 _]. rewrite encode_eqb by auto. destruct (text_eqb r2 s); [split; [reflexivity|discriminate]|].
  apply IH; auto.
Qed.

(** ** The lexical layer *)
From Verif Require Import TermFacts.

Lemma Fine_suffix A (p : parser text A) : Fine p -> forall s r a, p s = Ok r a -> exists x, s = x ++ r.
Proof. intros H s r a E. specialize (H s). rewrite E in H. exact H. Qed.
Lemma Enc_rec A B (Q : A -> Prop) (g : A -> B) p pb : Enc Q g p pb -> Fine p -> EncT (recognize p) (b_recognize pb).
Proof. intros H HF. eapply Enc_recognize; eauto using Fine_suffix. Qed.
Lemma Enc_seq A B (Q : A -> Prop) (g : A -> B) C D (Q' : C -> Prop) (h : C -> D) p pb q qb :
  Enc Q g p pb -> Enc Q' h q qb -> Enc Q' h (bind p (fun _ => q)) (bind pb (fun _ => qb)).
Proof. intros Hp Hq. eapply Enc_bind; eauto. Qed.
Lemma Enc_tt : EncV (ret tt) (ret tt).
Proof. apply (Enc_ret _ _ any same). exact I. Qed.
Ltac enc1 := match goal with
  | |- Enc _ _ (ret tt) _ => apply Enc_tt
  | |- Enc _ _ (bind _ _) _ => eapply Enc_seq
  | |- Enc _ _ (alt_or _ _) _ => apply Enc_or
  | |- Enc _ _ alt_end _ => apply Enc_end
  | |- Enc _ _ (opt _) _ => apply Enc_opt
  | |- Enc _ _ (pchar _) _ => apply Enc_char
  | |- Enc _ _ (one_of _) _ => apply Enc_one_of
  | |- Enc _ _ (tag _) _ => apply Enc_tag, Ascii_dec; reflexivity
  | |- Enc _ _ (take_until _) _ => apply Enc_take_until; [apply Ascii_dec; reflexivity|discriminate]
  | |- Enc _ _ (take_while1 _) _ => apply Enc_take_while1
  | |- Enc _ _ (take_while _) _ => apply Enc_take_while
  end.
Ltac enc := repeat enc1.

Lemma Enc_sp_item : EncV sp_item b_sp_item.
Proof.
  unfold sp_item, b_sp_item, line_comment, ws_run, block_comment. enc1; [enc|]. enc1; [|enc].
  eapply Enc_map; [enc|reflexivity].
Qed.
(** The bound on the number of iterations does not matter. *)
Lemma sp_loop_fuel n : forall i acc m, length i < n -> n <= m ->
  many0_loop text_eqb m sp_item i acc = many0_loop text_eqb n sp_item i acc.
Proof.
  induction n as [|n IH]; intros i acc [|m] Hi Hm; try lia. cbn [many0_loop].
  destruct (sp_item_spec i) as [(a & r & -> & -> & Ha & Hb)|((e & k & ->) & Hn)]; auto.
  destruct (text_eqb r (a ++ r)); auto. apply IH; [|lia]. rewrite app_length in Hi. destruct a; [congruence|]. cbn in Hi. lia.
Qed.
Lemma Enc_sp : EncT sp b_sp.
Proof.
  assert (H : EncV (many0t sp_item) (b_many0 b_sp_item)).
  { intros s Hs. unfold b_many0, many0t, many0.
    rewrite <- (sp_loop_fuel (S (length s)) s [] (S (length (encode s)))) by (pose proof (encode_length s); lia).
    apply Enc_many0_loop; auto using Enc_sp_item. }
  eapply Enc_recognize; [exact H|]. intros s r a. unfold many0t, many0.
  destruct (sp_loop (S (length s)) s []) as (w & r' & l & -> & Ei & _); [lia|]. intros [= <- <-]. eauto.
Qed.
Lemma Enc_ws A B (Q : A -> Prop) (g : A -> B) p pb : Enc Q g p pb -> Enc Q g (ws p) (b_ws pb).
Proof.
  intros H. unfold ws, b_ws. eapply Enc_seq; [apply Enc_sp|]. eapply Enc_bind; [exact H|]. intros a Ha.
  eapply Enc_seq; [apply Enc_sp|]. apply Enc_ret. auto.
Qed.
Lemma Enc_ident_tag t : Ascii t -> EncT (ident_tag t) (b_ident_tag t).
Proof.
  intros Ht s Hs. unfold ident_tag, b_ident_tag. destruct (Enc_tag t Ht s Hs) as [-> H].
  destruct (tag t s) as [r a|[]|]; cbn [map_res]; try (split; [reflexivity|discriminate]).
  destruct (H r a eq_refl) as [Hr Ha]. destruct r as [|c r]; cbn [encode flat_map]; [split; [reflexivity|]; intros r' v [= <- <-]; auto|].
  fold (encode r). destruct (utf8_first c) as (x & q & E & _ & <-). rewrite E. cbn [app].
  destruct (is_alphanumeric x || N.eqb x (chr "_") || N.eqb x (chr "-")); (split; [|try discriminate; intros r' v [= <- <-]; auto]).
  - reflexivity.
  - cbn [map_res encode flat_map]. rewrite E. reflexivity.
Qed.
Lemma term_Ascii t : Ascii (str (term_text t)).
Proof. apply Ascii_dec. destruct t; reflexivity. Qed.
Lemma Enc_term t : EncV (p_term t) (b_term t).
Proof.
  unfold p_term, b_term. destruct (term_is_name t); (eapply Enc_seq; [|apply Enc_tt]); apply Enc_ws;
    [apply Enc_ident_tag|apply Enc_tag]; apply term_Ascii.
Qed.
Lemma Enc_Identifier : EncT p_Identifier b_Identifier.
Proof.
  apply Enc_ws. eapply Enc_seq; [enc|]. eapply Enc_bind; [eapply Enc_rec; [enc|auto 10 with fine]|]. intros a Ha. apply Enc_ret. auto.
Qed.
Lemma Enc_StringLit : EncT p_StringLit b_StringLit.
Proof.
  apply Enc_ws. eapply Enc_seq; [enc|]. eapply Enc_bind; [enc|]. intros a Ha. eapply Enc_seq; [enc|]. apply Enc_ret. auto.
Qed.
Lemma Enc_DecLit : EncT p_DecLit b_DecLit.
Proof. apply Enc_ws. eapply Enc_rec; [enc|auto 15 with fine]. Qed.
Lemma Enc_HexLit : EncT p_HexLit b_HexLit.
Proof. apply Enc_ws. eapply Enc_rec; [enc|auto 15 with fine]. Qed.
Lemma Enc_OctLit : EncT p_OctLit b_OctLit.
Proof. apply Enc_ws. eapply Enc_rec; [enc|auto 15 with fine]. Qed.
Lemma Enc_exponent : EncV exponent b_exponent.
Proof. unfold exponent, b_exponent. enc. Qed.
Lemma Enc_FloatValueLit : EncT p_FloatValueLit b_FloatValueLit.
Proof.
  apply Enc_ws. eapply Enc_rec; [|auto 20 with fine]. eapply Enc_seq; [enc|]. eapply Enc_seq; [|enc].
  apply Enc_or; [eapply Enc_seq; [|eapply Enc_seq; [apply Enc_opt, Enc_exponent|enc]]; enc|].
  apply Enc_or; [|apply Enc_end]. eapply Enc_seq; [enc|apply Enc_exponent].
Qed.
Lemma Enc_chars A (f : text -> A) p pb : EncT p pb -> EncV (pmap f p) (pmap (fun s => f (chars s)) pb).
Proof. intros H. eapply Enc_map; [exact H|]. intros a Ha. cbn. rewrite chars_encode; auto. Qed.
Lemma Enc_mapV A B (f : A -> B) p pb : @Enc A A any same p pb -> EncV (pmap f p) (pmap f pb).
Proof. intros H. eapply Enc_map; [exact H|]. reflexivity. Qed.
Lemma Enc_IntegerLit : EncV p_IntegerLit b_IntegerLit.
Proof.
  repeat (apply Enc_or; [|try apply Enc_end]); apply Enc_chars; auto using Enc_DecLit, Enc_HexLit, Enc_OctLit.
Qed.
Lemma Enc_FloatLit : EncV p_FloatLit b_FloatLit.
Proof.
  repeat (apply Enc_or; [|try apply Enc_end]); try (apply Enc_chars, Enc_FloatValueLit); apply Enc_mapV, Enc_term.
Qed.
Lemma Enc_BooleanLit : EncV p_BooleanLit b_BooleanLit.
Proof. repeat (apply Enc_or; [|try apply Enc_end]); apply Enc_mapV, Enc_term. Qed.
Lemma Enc_pair t u : EncV (bind (p_term t) (fun _ => bind (p_term u) (fun _ => ret tt))) (bind (b_term t) (fun _ => bind (b_term u) (fun _ => ret tt))).
Proof. eapply Enc_seq; [apply Enc_term|]. eapply Enc_seq; [apply Enc_term|apply Enc_tt]. Qed.
Lemma Enc_DefaultValue : EncV p_DefaultValue b_DefaultValue.
Proof.
  repeat (apply Enc_or; [|try apply Enc_end]).
  - apply Enc_mapV, Enc_BooleanLit.
  - apply Enc_mapV, Enc_pair.
  - apply Enc_mapV, Enc_pair.
  - apply Enc_mapV, Enc_FloatLit.
  - apply Enc_mapV, Enc_IntegerLit.
  - apply Enc_mapV, Enc_term.
  - apply Enc_chars, Enc_StringLit.
Qed.
Lemma Enc_ConstValue : EncV p_ConstValue b_ConstValue.
Proof.
  repeat (apply Enc_or; [|try apply Enc_end]).
  - apply Enc_mapV, Enc_BooleanLit.
  - apply Enc_mapV, Enc_FloatLit.
  - apply Enc_mapV, Enc_IntegerLit.
  - apply Enc_mapV, Enc_term.
Qed.

(** ** All parsers *)
From Verif Require Import Ast Grammar RunFacts Shapes Api ApiFacts.

Lemma Enc_id A (p : parser text A) pb : EncV p (pmap same pb) -> EncV p pb.
Proof.
  intros H s Hs. destruct (H s Hs) as [E H']. split; auto. unfold pmap, bind, ret, same in E. destruct (pb (encode s)); auto.
Qed.
Lemma Enc_terminal A (t : terminal A) : EncV (text_sem A t) (byte_sem A t).
Proof.
  destruct t; cbn [text_sem byte_sem].
  - apply Enc_term.
  - intros s Hs. destruct (Enc_Identifier s Hs) as [E H]. unfold pmap, bind, ret. rewrite E.
    destruct (p_Identifier s) as [r a|[]|]; cbn; try (split; [reflexivity|discriminate]).
    destruct (H r a eq_refl). rewrite chars_encode by auto. split; [reflexivity|]. intros r' v [= <- <-]. split; [auto|exact I].
  - intros s Hs. destruct (Enc_StringLit s Hs) as [E H]. unfold pmap, bind, ret. rewrite E.
    destruct (p_StringLit s) as [r a|[]|]; cbn; try (split; [reflexivity|discriminate]).
    destruct (H r a eq_refl). rewrite chars_encode by auto. split; [reflexivity|]. intros r' v [= <- <-]. split; [auto|exact I].
  - apply Enc_DefaultValue.
  - apply Enc_ConstValue.
Qed.
Notation brun := (run text_eqb byte_sem).
Theorem Enc_run n : forall A (p : pexp A), EncV (trun n A p) (brun n A p).
Proof.
  induction n as [n IHn] using lt_wf_ind.
  induction p as [A t|A a|A B p IHp f IHf|A p IHp q IHq|A|A p IHp|A p IHp|S A s IHs p IHp|S A s IHs p IHp|A x]; runs.
  - apply Enc_terminal.
  - apply (Enc_ret _ _ any same). exact I.
  - eapply Enc_bind; [apply IHp|]. intros a _. apply IHf.
  - apply Enc_or; auto.
  - apply Enc_end.
  - apply Enc_opt; auto.
  - unfold many0. apply (Enc_many0_loop A n _ _ IHp []).
  - intros i Hi. unfold separated_list. destruct (IHp i Hi) as [-> H].
    destruct (trun n A p i) as [r a|[]|]; cbn [map_res]; try (split; [reflexivity|discriminate]).
    + destruct (H r a eq_refl) as [Hr _]. rewrite encode_eqb by auto. destruct (text_eqb r i); [split; [reflexivity|discriminate]|].
      apply (Enc_sep_loop A S n _ _ _ _ IHs IHp [a] r Hr).
    + split; [reflexivity|]. intros r' v [= <- <-]. split; [auto|exact I].
  - intros i Hi. unfold separated_nonempty_list. destruct (IHp i Hi) as [-> H].
    destruct (trun n A p i) as [r a|[]|]; cbn [map_res]; try (split; [reflexivity|discriminate]).
    destruct (H r a eq_refl) as [Hr _]. rewrite encode_eqb by auto. destruct (text_eqb r i); [split; [reflexivity|discriminate]|].
    apply (Enc_sep_loop A S n _ _ _ _ IHs IHp [a] r Hr).
  - destruct n as [|n]; [intros i Hi; split; [reflexivity|discriminate]|]. rewrite !run_nt_S. apply IHn. auto.
Qed.

(** Every parser does on the bytes of a text what it does on the text. *)
Theorem bytes_as_encode b A (p : pexp A) s : Impl b A p -> Scalars s -> bytes_as p (encode s) = map_res same (parse_as p s).
Proof.
  intros HI Hs. unfold bytes_as. destruct (Enc_run (S (length (encode s))) A p s Hs) as [-> _].
  rewrite (trun_fuel _ _ _ b) by (auto using Impl_Shape; pose proof (encode_length s); lia). reflexivity.
Qed.
(** It never cuts inside of a character, never runs forever, and leaves a [&str]. *)
Theorem bytes_as_safe b A (p : pexp A) s : Impl b A p -> Utf8 s ->
  (exists rest v x, bytes_as p s = Ok rest v /\ Utf8 x /\ Utf8 rest /\ s = x ++ rest) \/
  (exists pos k x, bytes_as p s = Err (Error pos k) /\ Utf8 x /\ Utf8 pos /\ s = x ++ pos).
Proof.
  intros HI HU. apply Utf8_exact in HU as (t & Ht & ->). rewrite (bytes_as_encode _ _ _ _ HI Ht).
  pose proof (trun_Good (S (length t)) A p t) as HG. pose proof (trun_Total (S (length t)) A p false b t) as HT. unfold parse_as.
  assert (K : forall x r, t = x ++ r -> Utf8 (encode x) /\ Utf8 (encode r) /\ encode t = encode x ++ encode r).
  { intros x r ->. apply Scalars_app in Ht as [H1 H2]. split; [|split]; [apply Utf8_exact; eauto|apply Utf8_exact; eauto|apply encode_app]. }
  destruct (trun (S (length t)) A p t) as [r a|[q k|q k|]|]; cbn in HG; try contradiction.
  - destruct HG as [x E]. destruct (K x r E) as (H1 & H2 & H3). left. exists (encode r), a, (encode x). auto.
  - destruct HG as [x E]. destruct (K x q E) as (H1 & H2 & H3). right. exists (encode q), k, (encode x). auto.
  - exfalso. apply HT; auto using Impl_Shape. lia.
Qed.
Theorem parse_bytes_encode s defs : Scalars s ->
  (parse_bytes (encode s) = Parsed defs <-> parse s = Parsed defs) /\ (parse_bytes (encode s) = Panicked <-> parse s = Panicked) /\
  parse_bytes (encode s) <> NoReturn.
Proof.
  intros Hs. unfold parse_bytes, parse. rewrite (bytes_as_encode _ _ _ _ I_Definitions Hs).
  pose proof (trun_Total (S (length s)) _ e_Definitions false false s (Impl_Shape _ _ _ I_Definitions)) as HT. unfold parse_as.
  destruct (trun (S (length s)) _ e_Definitions s) as [[|c r] a|[]|]; cbn [map_res encode flat_map]; try (split; [|split]; try tauto; discriminate).
  - destruct (utf8_first c) as (x & q & E & _). rewrite E. cbn. split; [tauto|split; [tauto|discriminate]].
  - split; [split; discriminate|split; [split; discriminate|discriminate]].
  - split; [split; discriminate|split; [split; discriminate|discriminate]].
  - exfalso. apply HT; auto. lia.
Qed.
