(** * What is derived: the output of [Debug], and where [Copy] is derived *)
From Coq Require Import String Ascii NArith Arith Bool List Lia.
From Verif Require Import Source Rust Crate Interp Embed SourceLex SourceProps SourceWt SourceOnto SourceFacts Live.
From Verif Require Import Nom Lex Ast Grammar Api.
Import ListNotations.
Open Scope string_scope.
Open Scope list_scope.

(** ** What [{:?}] writes *)
(** Not code of the crate: [#[derive(Debug)]] (src/macros.rs:191, 232 and 411, src/term.rs:5 and 42) and the [Debug] of the standard library for
    strings, booleans, options, boxes, vectors and tuples, without [#].  Versions of the standard library differ in the characters that are printable,
    in the escape of a single quote in strings, and in the escape of the character 0. *)
Record version : Type := { printable : N -> bool; quote_escaped : bool; zero_escaped : bool }.
Definition digit (d : N) : N := if N.ltb d 10 then 48 + d else 87 + d.
(** [\u{...}] has lower case digits, without leading zeros. *)
Fixpoint hex (f : nat) (c : N) (acc : text) : text :=
  let acc' := digit (N.modulo c 16) :: acc in
  match f with
  | 0 => acc'
  | S f => if N.eqb (N.div c 16) 0 then acc' else hex f (N.div c 16) acc'
  end.
Definition escape (o : version) (c : N) : text :=
  if N.eqb c 9 then str "\t" else if N.eqb c 13 then str "\r" else if N.eqb c 10 then str "\n"
  else if N.eqb c 92 then str "\\" else if N.eqb c 34 then str "\""" else if N.eqb c 39 && quote_escaped o then str "\'"
  else if N.eqb c 0 && zero_escaped o then str "\0"
  else if printable o c then [c] else str "\u{" ++ hex (N.to_nat (N.size c)) c [] ++ str "}".
Definition debug_str (o : version) (s : text) : text := str """" ++ flat_map (escape o) s ++ str """".
(** Items with commas between them. *)
Definition commas (l : list text) : text := match l with [] => [] | x :: l' => x ++ flat_map (fun y => str ", " ++ y) l' end.
(** [A::B] is [B]. *)
Fixpoint last_name (acc : string) (s : string) : string :=
  match s with
  | EmptyString => acc
  | String c s' => if Ascii.eqb c ":" then last_name "" s' else last_name (acc ++ String c "") s'
  end.
Definition shown_name (t v : string) : string := if String.eqb v "" then last_name "" t else v.
Fixpoint debug (o : version) (v : value) : text :=
  match v with
  | VStr s => debug_str o s
  | VBool b => str (if b then "true" else "false")
  | VTup l => str "(" ++ commas (map (debug o) l) ++ str (match l with [_] => ",)" | _ => ")" end)
  | VVec l => str "[" ++ commas (map (debug o) l) ++ str "]"
  | VCon c l =>
      if String.eqb c "Box::new" then commas (map (debug o) l)
      else match l with [] => str c | _ => str c ++ str "(" ++ commas (map (debug o) l) ++ str ")" end
  | VData t v fs =>
      str (shown_name t v) ++
      match fs with
      | [] => []
      | (f, _) :: _ =>
          if String.eqb f "0" then str "(" ++ commas (map (fun f => debug o (snd f)) fs) ++ str ")"
          else str " { " ++ commas (map (fun f => str (fst f) ++ str ": " ++ debug o (snd f)) fs) ++ str " }"
      end
  | VChr _ | VBytes _ | VNom _ | VKind _ => []                    (* not in trees *)
  end.

(** ** It can be read back *)
Lemma digit_inj a b : (a < 16)%N -> (b < 16)%N -> digit a = digit b -> a = b.
Proof. unfold digit. destruct (N.ltb_spec a 10), (N.ltb_spec b 10); lia. Qed.
Definition undigit (d : N) : N := if N.ltb d 58 then (d - 48)%N else (d - 87)%N.
Lemma undigit_digit a : (a < 16)%N -> undigit (digit a) = a.
Proof. unfold undigit, digit. intros H. destruct (N.ltb_spec a 10); [destruct (N.ltb_spec (48 + a) 58)|destruct (N.ltb_spec (87 + a) 58)]; lia. Qed.
Definition hval (l : text) (a : N) : N := fold_left (fun a d => 16 * a + undigit d)%N l a.
Lemma hex_val f : forall c acc, (c < 16 ^ N.of_nat (S f))%N -> hval (hex f c acc) 0 = hval acc c.
Proof.
  induction f as [|f IH]; intros c acc H; cbn [hex].
  - change (hval acc (16 * 0 + undigit (digit (c mod 16)))%N = hval acc c). rewrite undigit_digit by (apply N.mod_lt; lia). f_equal.
    cbn in H. rewrite N.mod_small by exact H. lia.
  - destruct (N.eqb_spec (c / 16) 0) as [E|E].
    + change (hval acc (16 * 0 + undigit (digit (c mod 16)))%N = hval acc c). rewrite undigit_digit by (apply N.mod_lt; lia). f_equal.
      pose proof (N.div_mod c 16 ltac:(lia)). lia.
    + rewrite IH.
      * change (hval acc (16 * (c / 16) + undigit (digit (c mod 16)))%N = hval acc c). rewrite undigit_digit by (apply N.mod_lt; lia). f_equal.
        pose proof (N.div_mod c 16 ltac:(lia)). lia.
      * apply N.div_lt_upper_bound; [lia|]. rewrite <- N.pow_succ_r'. replace (N.succ (N.of_nat (S f))) with (N.of_nat (S (S f))) by lia. exact H.
Qed.
Lemma size_bound c : (c < 16 ^ N.of_nat (S (N.to_nat (N.size c))))%N.
Proof.
  rewrite Nat2N.inj_succ, N2Nat.id. pose proof (N.size_gt c) as H. rewrite N.pow_succ_r'.
  assert (K : (2 ^ N.size c <= 16 ^ N.size c)%N) by (apply N.pow_le_mono_l; lia). lia.
Qed.
Lemma hex_inj c d : hex (N.to_nat (N.size c)) c [] = hex (N.to_nat (N.size d)) d [] -> c = d.
Proof. intros E. pose proof (hex_val _ c [] (size_bound c)) as H. pose proof (hex_val _ d [] (size_bound d)) as K. rewrite E in H. cbn in H, K. congruence. Qed.
Lemma hex_digits f : forall c acc, Forall (fun x => x <> 125%N) acc -> Forall (fun x => x <> 125%N) (hex f c acc).
Proof.
  assert (D : forall a, (a < 16)%N -> digit a <> 125%N) by (intros a H; unfold digit; destruct (N.ltb_spec a 10); lia).
  induction f as [|f IH]; intros c acc H; cbn [hex].
  - constructor; [apply D, N.mod_lt; lia|exact H].
  - assert (Forall (fun x => x <> 125%N) (digit (c mod 16) :: acc)) by (constructor; [apply D, N.mod_lt; lia|exact H]). destruct (N.eqb _ _); auto.
Qed.
(** A word that does not contain the character behind it. *)
Lemma word_end (x : N) a : forall b r r', ~ In x a -> ~ In x b -> a ++ x :: r = b ++ x :: r' -> a = b /\ r = r'.
Proof.
  induction a as [|c a IH]; intros [|d b] r r' Ha Hb E; cbn in E.
  - injection E as ->. auto.
  - injection E as <- _. exfalso. apply Hb. left. reflexivity.
  - injection E as -> _. exfalso. apply Ha. left. reflexivity.
  - injection E as <- E. destruct (IH b r r') as [-> ->]; cbn in Ha, Hb; auto.
Qed.
Lemma escape_cases o c : (escape o c = [c] /\ c <> 92 /\ c <> 34)%N \/
  (exists x, escape o c = [92; x] /\ In (c, x) [(9, 116); (13, 114); (10, 110); (92, 92); (34, 34); (39, 39); (0, 48)])%N \/
  (escape o c = [92; 117; 123] ++ hex (N.to_nat (N.size c)) c [] ++ [125])%N.
Proof.
  unfold escape.
  destruct (N.eqb_spec c 9); [right; left; exists 116%N; subst; cbn; auto|]. destruct (N.eqb_spec c 13); [right; left; exists 114%N; subst; cbn; auto 10|].
  destruct (N.eqb_spec c 10); [right; left; exists 110%N; subst; cbn; auto 10|]. destruct (N.eqb_spec c 92); [right; left; exists 92%N; subst; cbn; auto 10|].
  destruct (N.eqb_spec c 34); [right; left; exists 34%N; subst; cbn; auto 10|].
  destruct (N.eqb c 39 && quote_escaped o) eqn:E1; [apply andb_prop in E1; destruct E1 as [E1 _]; apply N.eqb_eq in E1; right; left; exists 39%N; subst; cbn; auto 10|].
  destruct (N.eqb c 0 && zero_escaped o) eqn:E2; [apply andb_prop in E2; destruct E2 as [E2 _]; apply N.eqb_eq in E2; right; left; exists 48%N; subst; cbn; auto 10|].
  destruct (printable o c); [left; auto|right; right; reflexivity].
Qed.
Lemma escape_inj o c d r r' : escape o c ++ r = escape o d ++ r' -> c = d /\ r = r'.
Proof.
  intros E. destruct (escape_cases o c) as [(Ec & C1 & C2)|[(x & Ec & Hx)|Ec]]; destruct (escape_cases o d) as [(Ed & D1 & D2)|[(y & Ed & Hy)|Ed]]; rewrite Ec, Ed in E; cbn [app] in E.
  - injection E as -> ->. auto.
  - injection E as E _. congruence.
  - injection E as E _. congruence.
  - injection E as E _. congruence.
  - injection E as -> ->. split; [|reflexivity]. cbn in Hx, Hy. decompose sum Hx; decompose sum Hy; congruence.
  - injection E as -> _. exfalso. cbn in Hx. decompose sum Hx; congruence.
  - injection E as E _. congruence.
  - injection E as <- _. exfalso. cbn in Hy. decompose sum Hy; congruence.
  - injection E as E. rewrite <- !app_assoc in E. cbn [app] in E. apply word_end in E.
    + destruct E as [E ->]. split; [apply hex_inj; exact E|reflexivity].
    + intros K. exact (proj1 (Forall_forall _ _) (hex_digits _ c [] (Forall_nil _)) _ K eq_refl).
    + intros K. exact (proj1 (Forall_forall _ _) (hex_digits _ d [] (Forall_nil _)) _ K eq_refl).
Qed.
Lemma escape_head o c r : exists x s, escape o c ++ r = x :: s /\ x <> 34%N.
Proof.
  destruct (escape_cases o c) as [(Ec & C1 & C2)|[(x & Ec & Hx)|Ec]]; rewrite Ec; cbn [app]; eexists _, _; (split; [reflexivity|]); [exact C2|discriminate|discriminate].
Qed.
Lemma str_inj o s : forall t r r', flat_map (escape o) s ++ 34%N :: r = flat_map (escape o) t ++ 34%N :: r' -> s = t /\ r = r'.
Proof.
  induction s as [|c s IH]; intros [|d t] r r' E; cbn [flat_map] in E.
  - injection E as ->. auto.
  - exfalso. cbn [app] in E. rewrite <- app_assoc in E. destruct (escape_head o d (flat_map (escape o) t ++ 34%N :: r')) as (x & z & Ex & N). rewrite Ex in E. injection E as <- _. auto.
  - exfalso. cbn [app] in E. rewrite <- app_assoc in E. destruct (escape_head o c (flat_map (escape o) s ++ 34%N :: r)) as (x & z & Ex & N). rewrite Ex in E. injection E as -> _. auto.
  - rewrite <- !app_assoc in E. apply escape_inj in E. destruct E as [<- E]. apply IH in E. destruct E as [<- <-]. auto.
Qed.
(** Names of types and variants, and of fields. *)
Definition plain (s : string) : bool :=
  negb (String.eqb s "") && forallb (fun c => negb (existsb (N.eqb c) (str " (:,]"))) (str s).
Definition decl_plain : bool :=
  forallb (fun d => plain (last_name "" (fst d)) && none (lookup (fst d) enum_decls) && negb (library (fst d))) structs &&
  forallb (fun d => forallb (fun v => plain (fst v)) (snd (snd d)) && none (lookup (fst d) structs) && negb (library (fst d))) enum_decls.
Lemma decls_plain : decl_plain = true.
Proof. vm_compute. reflexivity. Qed.
Lemma struct_plain n d : lookup n structs = Some d -> plain (last_name "" n) = true /\ none (lookup n enum_decls) && negb (library n) = true.
Proof.
  intros H. apply lookup_In in H. pose proof decls_plain as E. apply andb_prop in E. destruct E as [E _]. rewrite forallb_forall in E. specialize (E _ H). cbn [fst] in E.
  rewrite !andb_true_iff in E. destruct E as [[E1 E2] E3]. rewrite E2, E3. auto.
Qed.
Lemma enum_plain n ds vs : lookup n enum_decls = Some (ds, vs) -> (forall v t, In (v, t) vs -> plain v = true) /\ none (lookup n structs) && negb (library n) = true.
Proof.
  intros H. apply lookup_In in H. pose proof decls_plain as E. apply andb_prop in E. destruct E as [_ E]. rewrite forallb_forall in E. specialize (E _ H). cbn [fst snd] in E.
  rewrite !andb_true_iff in E. destruct E as [[E1 E2] E3]. rewrite E2, E3. split; [|auto]. intros v t K. rewrite forallb_forall in E1. exact (E1 _ K).
Qed.
Lemma plain_head s : plain s = true -> exists x z, str s = x :: z /\ x <> 93%N.
Proof.
  unfold plain. destruct s as [|c s]; [discriminate|]. cbn [negb String.eqb andb str forallb]. intros H. apply andb_prop in H. destruct H as [H _].
  eexists _, _. split; [reflexivity|]. intros E. rewrite E in H. discriminate H.
Qed.
Lemma plain_no s x : plain s = true -> In x (str " (:,]") -> ~ In x (str s).
Proof.
  unfold plain. intros H Hx K. apply andb_prop in H. destruct H as [_ H]. rewrite forallb_forall in H. specialize (H _ K).
  assert (E : existsb (N.eqb x) (str " (:,]") = true) by (apply existsb_exists; exists x; split; [exact Hx|apply N.eqb_refl]). rewrite E in H. discriminate H.
Qed.
Lemma str_inj_string s : forall t, str s = str t -> s = t.
Proof.
  induction s as [|c s IH]; intros [|d t] E; cbn [str] in E; try discriminate; [reflexivity|]. injection E as E E'. f_equal; [|auto].
  pose proof (ascii_N_embedding c) as Hc. rewrite E, ascii_N_embedding in Hc. symmetry. exact Hc.
Qed.

Lemma variants_once n ds vs v t u : lookup n enum_decls = Some (ds, vs) -> In (v, t) vs -> In (v, u) vs -> t = u.
Proof.
  intros H. apply lookup_In in H. assert (E : forallb (fun d => fresh_names (map fst (snd (snd d)))) enum_decls = true) by (vm_compute; reflexivity).
  rewrite forallb_forall in E. specialize (E _ H). cbn [snd] in E. intros Ht Hu. pose proof (lookup_unique _ _ E _ _ Ht). pose proof (lookup_unique _ _ E _ _ Hu). congruence.
Qed.
(** ** Equal output, equal values *)
Definition items (l : list text) : text := flat_map (fun y => str ", " ++ y) l.
(** Two values with the same type and the same output, with anything behind it. *)
Definition Same (o : version) (u v : value) : Prop := forall r r', debug o u ++ r = debug o v ++ r' -> u = v /\ r = r'.
Lemma tuple_items o l : forall m r r', Forall2 (Same o) l m -> items (map (debug o) l) ++ r = items (map (debug o) m) ++ r' -> l = m /\ r = r'.
Proof.
  induction l as [|x l IH]; intros m r r' F E; inversion F as [|? y ? m' S F']; subst; cbn in E; [auto|].
  injection E as E. rewrite <- !app_assoc in E. apply S in E. destruct E as [-> E]. apply IH in E; [|exact F']. destruct E as [-> ->]. auto.
Qed.
Lemma tuple_commas o l m r r' : Forall2 (Same o) l m -> commas (map (debug o) l) ++ r = commas (map (debug o) m) ++ r' -> l = m /\ r = r'.
Proof.
  intros F E. destruct F as [|x y l m S F]; cbn [map commas] in E; [auto|]. rewrite <- !app_assoc in E. apply S in E. destruct E as [-> E].
  apply (tuple_items o l m) in E; [|exact F]. destruct E as [-> ->]. auto.
Qed.
Lemma field_items o l : forall m r r', Forall2 (fun f g => fst f = fst g /\ Same o (snd f) (snd g)) l m ->
  items (map (fun f => str (fst f) ++ str ": " ++ debug o (snd f)) l) ++ r = items (map (fun f => str (fst f) ++ str ": " ++ debug o (snd f)) m) ++ r' -> l = m /\ r = r'.
Proof.
  induction l as [|[a x] l IH]; intros m r r' F E; inversion F as [|? [b y] ? m' [S1 S2] F']; subst; cbn in E; [auto|]. cbn [fst snd] in S1, S2. subst b.
  injection E as E. rewrite <- !app_assoc in E. apply app_inv_head in E. cbn [app] in E. injection E as E. rewrite <- ?app_assoc in E. apply S2 in E. destruct E as [-> E].
  apply IH in E; [|exact F']. destruct E as [-> ->]. auto.
Qed.
Lemma field_commas o l m r r' : Forall2 (fun f g => fst f = fst g /\ Same o (snd f) (snd g)) l m ->
  commas (map (fun f => str (fst f) ++ str ": " ++ debug o (snd f)) l) ++ r = commas (map (fun f => str (fst f) ++ str ": " ++ debug o (snd f)) m) ++ r' -> l = m /\ r = r'.
Proof.
  intros F E. destruct F as [|[a x] [b y] l m [S1 S2] F]; cbn [map commas fst snd] in E; [auto|]. cbn [fst snd] in S1, S2. subst b.
  rewrite <- !app_assoc in E. apply app_inv_head in E. cbn [str app] in E. injection E as E. apply S2 in E. destruct E as [-> E].
  apply (field_items o l m) in E; [|exact F]. destruct E as [-> ->]. auto.
Qed.
Lemma value_commas o l m r r' : Forall2 (fun f g => fst f = fst g /\ Same o (snd f) (snd g)) l m ->
  commas (map (fun f : string * value => debug o (snd f)) l) ++ r = commas (map (fun f => debug o (snd f)) m) ++ r' -> l = m /\ r = r'.
Proof.
  intros F E. assert (F' : Forall2 (Same o) (map snd l) (map snd m)) by (clear -F; induction F as [|? ? ? ? [_ S] _ IH]; constructor; assumption).
  rewrite <- (map_map snd (debug o)), <- (map_map snd (debug o)) in E. apply tuple_commas in E; [|exact F']. destruct E as [E ->]. split; [|reflexivity].
  clear -F E. revert E. induction F as [|[a x] [b y] l m [S _] _ IH]; cbn [map fst snd] in *; intros E; [reflexivity|]. injection E as <- E. subst b. rewrite (IH E). reflexivity.
Qed.
Lemma debug_head o v t : wt v t -> exists x z, debug o v = x :: z /\ x <> 93%N.
Proof.
  remember (sz v) as n eqn:E. assert (L : sz v <= n) by lia. clear E. revert v t L. induction n as [|n IH]; intros v t L W; [destruct v; cbn in L; lia|].
  inversion W; subst; cbn [debug].
  - eexists _, _. split; [reflexivity|discriminate].
  - destruct b; eexists _, _; (split; [reflexivity|discriminate]).
  - eexists _, _. split; [reflexivity|discriminate].
  - eexists _, _. split; [reflexivity|discriminate].
  - cbn [String.eqb Ascii.eqb Bool.eqb map commas flat_map]. rewrite app_nil_r. eapply IH; [|eassumption]. cbn in L. lia.
  - eexists _, _. split; [reflexivity|discriminate].
  - eexists _, _. split; [reflexivity|discriminate].
  - match goal with H : In _ _ |- _ => apply struct_lookup in H; apply struct_plain in H; destruct H as [H _]; apply plain_head in H; destruct H as (x & z & H & N) end.
    change (shown_name n0 "") with (last_name "" n0). rewrite H. eexists _, _. split; [reflexivity|exact N].
  - match goal with H : In (IEnum _ _ _) _, K : In _ variants |- _ => apply enum_lookup in H; apply enum_plain in H; destruct H as [H _]; specialize (H _ _ K); pose proof H as P; apply plain_head in H; destruct H as (x' & z & H & N) end.
    unfold shown_name. destruct (String.eqb_spec v0 ""); [subst; discriminate P|]. rewrite H. eexists _, _. split; [reflexivity|exact N].
Qed.
Lemma vec_items o t l : forall m r r', Forall (fun x => forall y, wt y t -> Same o x y) l -> Forall (fun y => wt y t) m ->
  items (map (debug o) l) ++ 93%N :: r = items (map (debug o) m) ++ 93%N :: r' -> l = m /\ r = r'.
Proof.
  induction l as [|x l IH]; intros [|y m] r r' F G E; cbn in E; try discriminate E.
  - injection E as ->. auto.
  - injection E as E. rewrite <- !app_assoc in E. inversion F as [|? ? S F']; inversion G as [|? ? W G']; subst. apply (S _ W) in E. destruct E as [-> E].
    apply IH in E; [|assumption..]. destruct E as [-> ->]. auto.
Qed.
Lemma vec_commas o t l m r r' : Forall (fun x => forall y, wt y t -> Same o x y) l -> Forall (fun x => wt x t) l -> Forall (fun y => wt y t) m ->
  commas (map (debug o) l) ++ 93%N :: r = commas (map (debug o) m) ++ 93%N :: r' -> l = m /\ r = r'.
Proof.
  intros F W G E. destruct l as [|x l], m as [|y m]; cbn [map commas] in E.
  - injection E as ->. auto.
  - exfalso. inversion G as [|? ? Wy _]; subst. destruct (debug_head o _ _ Wy) as (c & z & Ec & N). rewrite Ec in E. injection E as <- _. auto.
  - exfalso. inversion W as [|? ? Wx _]; subst. destruct (debug_head o _ _ Wx) as (c & z & Ec & N). rewrite Ec in E. injection E as -> _. auto.
  - rewrite <- !app_assoc in E. inversion F as [|? ? S F']; inversion G as [|? ? Wy G']; subst. apply (S _ Wy) in E. destruct E as [-> E].
    apply (vec_items o t l m) in E; [|assumption..]. destruct E as [-> ->]. auto.
Qed.
Lemma size_in x l : In x l -> sz x <= list_sum (map sz l).
Proof. induction l as [|y l IH]; cbn [In map list_sum fold_right]; [contradiction|]. intros [->|H]; [lia|]. apply IH in H. unfold list_sum in H. lia. Qed.
Theorem debug_inj o u v t : wt u t -> wt v t -> forall r r', debug o u ++ r = debug o v ++ r' -> u = v /\ r = r'.
Proof.
  remember (sz u) as n eqn:E. assert (L : sz u <= n) by lia. clear E. revert u v t L. induction n as [|n IH]; intros u v t L W K; [destruct u; cbn in L; lia|].
  assert (IHl : forall l m ts, list_sum (map sz l) <= n -> Forall2 wt l ts -> Forall2 wt m ts -> Forall2 (Same o) l m).
  { intros l m ts Ll F. revert m. induction F as [|x t' l ts Hx _ IHF]; intros m G; inversion G; subst; constructor.
    - cbn [map list_sum fold_right] in Ll. intros r r'. apply (IH x _ t'); [lia|assumption..].
    - cbn [map list_sum fold_right] in Ll. apply IHF; [|assumption]. unfold list_sum. lia. }
  assert (IHf : forall fs gs s fields, list_sum (map (fun f => sz (snd f)) fs) <= n ->
     Forall2 (fun (f : string * value) (d : string * rty) => fst f = fst d /\ wt (snd f) (subst s (snd d))) fs fields ->
     Forall2 (fun (f : string * value) (d : string * rty) => fst f = fst d /\ wt (snd f) (subst s (snd d))) gs fields -> Forall2 (fun f g => fst f = fst g /\ Same o (snd f) (snd g)) fs gs).
  { intros fs gs s fields Ll F. revert gs. induction F as [|x t' l ts [N Hx] _ IHF]; intros m G; inversion G as [|? ? ? ? [N' Hy] G']; subst; constructor.
    - cbn [map list_sum fold_right] in Ll. split; [congruence|]. intros r r'. apply (IH _ _ (subst s (snd t'))); [lia|assumption..].
    - cbn [map list_sum fold_right] in Ll. apply IHF; [|assumption]. unfold list_sum. lia. }
  intros r r' E. inversion W; subst; cbn [sz] in L.
  - apply str_inv in K. destruct K as [s' ->]. cbn [debug] in E. unfold debug_str in E. cbn [str app] in E. injection E as E. rewrite <- !app_assoc in E. cbn [app] in E.
    apply str_inj in E. destruct E as [-> ->]. auto.
  - apply bool_inv in K. destruct K as [b' ->]. cbn [debug] in E. destruct b, b'; cbn in E; try discriminate E; injection E as ->; auto.
  - apply option_inv in K. destruct K as [->|(x & -> & _)]; [|discriminate E]. cbn in E. injection E as ->. auto.
  - apply option_inv in K. destruct K as [->|(x & -> & K)]; [discriminate E|]. cbn [debug String.eqb Ascii.eqb Bool.eqb map commas flat_map str app] in E. rewrite !app_nil_r in E.
    injection E as E. rewrite <- !app_assoc in E. apply IH with (t := t0) in E; [|cbn in L; lia|assumption..]. destruct E as [-> E]. cbn in E. injection E as ->. auto.
  - apply box_inv in K. destruct K as (x & -> & K). cbn [debug String.eqb Ascii.eqb Bool.eqb map commas flat_map] in E. rewrite !app_nil_r in E.
    apply IH with (t := t0) in E; [|cbn in L; lia|assumption..]. destruct E as [-> ->]. auto.
  - apply vec_inv in K. destruct K as (m & -> & K). cbn [debug str app] in E. injection E as E. rewrite <- !app_assoc in E. cbn [app] in E.
    apply (vec_commas o t0) in E; [destruct E as [-> ->]; auto| |assumption..].
    apply Forall_forall. intros x Hx y Hy p p'. apply (IH x y t0); [pose proof (size_in _ _ Hx); lia| |exact Hy]. exact (proj1 (Forall_forall _ _) H _ Hx).
  - apply tuple_inv in K. destruct K as (m & -> & K). cbn [debug str app] in E. injection E as E. rewrite <- !app_assoc in E.
    assert (S : Forall2 (Same o) l m) by (apply (IHl l m ts); [lia|assumption..]).
    apply tuple_commas in E; [|exact S]. destruct E as [-> E]. apply app_inv_head in E. subst. auto.
  - pose proof (struct_lookup _ _ _ _ H) as Lk. destruct (struct_plain _ _ Lk) as [_ Hn]. destruct (inv_struct _ _ _ _ _ _ K Lk Hn) as (gs & -> & G).
    assert (S : Forall2 (fun f g => fst f = fst g /\ Same o (snd f) (snd g)) fs gs) by (eapply IHf; [lia|eassumption..]).
    cbn [debug] in E. rewrite <- !app_assoc in E. apply app_inv_head in E. destruct S as [|[a x] [b y] fs gs [S1 S2] S]; [cbn in E; subst; auto|].
    cbn [fst snd] in S1, S2. subst b. assert (S' : Forall2 (fun f g => fst f = fst g /\ Same o (snd f) (snd g)) ((a, x) :: fs) ((a, y) :: gs)) by (constructor; [split; [reflexivity|exact S2]|exact S]).
    destruct (String.eqb a "0"); rewrite <- !app_assoc in E; apply app_inv_head in E; [apply value_commas in E|apply field_commas in E]; try exact S'; destruct E as [E1 E2]; rewrite E1; cbn in E2; injection E2 as ->; auto.
  - pose proof (enum_lookup _ _ _ H) as Lk. destruct (enum_plain _ _ _ Lk) as [Pl Hn]. destruct (inv_enum _ _ _ _ K Lk Hn) as (c & t' & y & -> & Hc & Wy).
    pose proof (Pl _ _ H0) as P1. pose proof (Pl _ _ Hc) as P2. cbn [debug] in E. unfold shown_name in E.
    destruct (String.eqb_spec v0 ""); [subst; discriminate P1|]. destruct (String.eqb_spec c ""); [subst; discriminate P2|].
    cbn [String.eqb Ascii.eqb Bool.eqb map commas flat_map fst snd str] in E. rewrite !app_nil_r, <- !app_assoc in E. cbn [app] in E.
    apply word_end in E; [|apply plain_no; [assumption|cbn; auto]..]. destruct E as [E1 E2]. apply str_inj_string in E1. subst c.
    assert (t' = t0) by (assert (X : In (v0, t') variants) by exact Hc; pose proof (variants_once _ _ _ _ _ _ Lk H0 Hc); congruence). subst t'.
    apply IH with (t := t0) in E2; [|cbn in L; lia|assumption..]. destruct E2 as [-> E2]. cbn in E2. injection E2 as ->. auto.
Qed.

(** ** The characters of the output *)
(** Printable characters that do not end a line, and printable ASCII. *)
Definition fine (o : version) (c : N) : Prop := (printable o c = true /\ c <> 9 /\ c <> 10 /\ c <> 13)%N \/ (32 <= c <= 126)%N.
Definition name_fine (s : string) : bool := forallb (fun c => N.leb 32 c && N.leb c 126) (str s).
Lemma fine_str o s : name_fine s = true -> Forall (fine o) (str s).
Proof.
  intros H. apply Forall_forall. intros c Hc. unfold name_fine in H. rewrite forallb_forall in H. specialize (H _ Hc). apply andb_prop in H. destruct H as [H H'].
  right. apply N.leb_le in H, H'. auto.
Qed.
Lemma fine_app o a b : Forall (fine o) a -> Forall (fine o) b -> Forall (fine o) (a ++ b).
Proof. intros H K. apply Forall_app. auto. Qed.
Lemma fine_hex o f : forall c acc, Forall (fine o) acc -> Forall (fine o) (hex f c acc).
Proof.
  assert (D : forall a, (a < 16)%N -> fine o (digit a)) by (intros a H; right; unfold digit; destruct (N.ltb_spec a 10); lia).
  induction f as [|f IH]; intros c acc H; cbn [hex].
  - constructor; [apply D, N.mod_lt; lia|exact H].
  - assert (Forall (fine o) (digit (c mod 16) :: acc)) by (constructor; [apply D, N.mod_lt; lia|exact H]). destruct (N.eqb _ _); auto.
Qed.
Lemma fine_escape o c : Forall (fine o) (escape o c).
Proof.
  unfold escape. destruct (N.eqb_spec c 9); [apply fine_str; reflexivity|]. destruct (N.eqb_spec c 13); [apply fine_str; reflexivity|].
  destruct (N.eqb_spec c 10); [apply fine_str; reflexivity|]. destruct (N.eqb_spec c 92); [apply fine_str; reflexivity|].
  destruct (N.eqb_spec c 34); [apply fine_str; reflexivity|]. destruct (N.eqb c 39 && quote_escaped o); [apply fine_str; reflexivity|].
  destruct (N.eqb c 0 && zero_escaped o); [apply fine_str; reflexivity|]. destruct (printable o c) eqn:E; [constructor; [left; auto|constructor]|].
  apply fine_app; [apply fine_str; reflexivity|]. apply fine_app; [apply fine_hex; constructor|apply fine_str; reflexivity].
Qed.
Lemma fine_commas o l : Forall (Forall (fine o)) l -> Forall (fine o) (commas l).
Proof.
  intros H. destruct H as [|x l H F]; cbn [commas]; [constructor|]. apply fine_app; [exact H|].
  induction F as [|y l Hy _ IH]; cbn [flat_map]; [constructor|]. apply fine_app; [|exact IH]. apply fine_app; [apply fine_str; reflexivity|exact Hy].
Qed.
Lemma struct_fine n ds vs fs : lookup n structs = Some (ds, (vs, fs)) -> name_fine (last_name "" n) = true /\ forallb (fun f => name_fine (fst f)) fs = true.
Proof.
  intros H. apply lookup_In in H. assert (E : forallb (fun d => name_fine (last_name "" (fst d)) && forallb (fun f => name_fine (fst f)) (snd (snd (snd d)))) structs = true) by (vm_compute; reflexivity).
  rewrite forallb_forall in E. specialize (E _ H). cbn [fst snd] in E. apply andb_prop in E. exact E.
Qed.
Lemma enum_fine n ds vs v t : lookup n enum_decls = Some (ds, vs) -> In (v, t) vs -> name_fine v = true.
Proof.
  intros H K. apply lookup_In in H. assert (E : forallb (fun d => forallb (fun v => name_fine (fst v)) (snd (snd d))) enum_decls = true) by (vm_compute; reflexivity).
  rewrite forallb_forall in E. specialize (E _ H). cbn [snd] in E. rewrite forallb_forall in E. exact (E _ K).
Qed.
Theorem debug_chars o v t : wt v t -> Forall (fine o) (debug o v).
Proof.
  remember (sz v) as n eqn:E. assert (L : sz v <= n) by lia. clear E. revert v t L. induction n as [|n IH]; intros v t L W; [destruct v; cbn in L; lia|].
  inversion W; subst; cbn [debug]; cbn [sz] in L.
  - unfold debug_str. apply fine_app; [apply fine_str; reflexivity|]. apply fine_app; [|apply fine_str; reflexivity].
    clear. induction s as [|c s IHs]; cbn [flat_map]; [constructor|]. apply fine_app; [apply fine_escape|exact IHs].
  - apply fine_str. destruct b; reflexivity.
  - apply (fine_str _ "None"). reflexivity.
  - cbn [String.eqb Ascii.eqb Bool.eqb map commas flat_map]. rewrite app_nil_r. apply fine_app; [apply (fine_str _ "Some"); reflexivity|].
    apply fine_app; [apply fine_str; reflexivity|]. apply fine_app; [|apply fine_str; reflexivity]. apply (IH _ t0); [cbn in L; lia|assumption].
  - cbn [String.eqb Ascii.eqb Bool.eqb map commas flat_map]. rewrite app_nil_r. apply (IH _ t0); [cbn in L; lia|assumption].
  - apply fine_app; [apply fine_str; reflexivity|]. apply fine_app; [|apply fine_str; reflexivity]. apply fine_commas, Forall_map, Forall_forall. intros x Hx.
    apply (IH _ t0); [pose proof (size_in _ _ Hx); lia|]. exact (proj1 (Forall_forall _ _) H _ Hx).
  - apply fine_app; [apply fine_str; reflexivity|]. apply fine_app; [|apply fine_str; destruct l as [|? [|? ?]]; reflexivity]. apply fine_commas, Forall_map, Forall_forall. intros x Hx.
    destruct (Forall2_In _ _ _ _ _ _ H Hx) as (t' & _ & Hw). apply (IH _ t'); [pose proof (size_in _ _ Hx); lia|exact Hw].
  - match goal with H : In _ _ |- _ => apply struct_lookup in H; apply struct_fine in H; destruct H as [N Nf] end.
    assert (Hf : forall f, In f fs -> name_fine (fst f) = true /\ Forall (fine o) (debug o (snd f))).
    { intros f Hf. match goal with F : Forall2 _ fs _ |- _ => destruct (Forall2_In _ _ _ _ _ _ F Hf) as (d & Hd & Ef & Wf) end. rewrite Ef. split.
      - rewrite forallb_forall in Nf. exact (Nf _ Hd).
      - eapply IH; [|exact Wf]. eapply sz_in_field; eassumption. }
    apply fine_app; [apply fine_str; exact N|]. destruct fs as [|[f x] fs]; [constructor|]. destruct (String.eqb f "0").
    + apply fine_app; [apply fine_str; reflexivity|]. apply fine_app; [|apply fine_str; reflexivity]. apply fine_commas, Forall_map, Forall_forall. intros g Hg. apply Hf, Hg.
    + apply fine_app; [apply fine_str; reflexivity|]. apply fine_app; [|apply fine_str; reflexivity]. apply fine_commas, Forall_map, Forall_forall. intros g Hg. destruct (Hf g Hg) as [G1 G2].
      apply fine_app; [apply fine_str; exact G1|]. apply fine_app; [apply fine_str; reflexivity|exact G2].
  - match goal with H : In (IEnum _ _ _) _, K : In _ variants |- _ => pose proof (enum_lookup _ _ _ H) as Lk; pose proof (enum_fine _ _ _ _ _ Lk K) as N; destruct (enum_plain _ _ _ Lk) as [P _]; specialize (P _ _ K) end.
    unfold shown_name. destruct (String.eqb_spec v0 ""); [subst; discriminate P|]. apply fine_app; [apply fine_str; exact N|].
    cbn [String.eqb Ascii.eqb Bool.eqb map commas flat_map snd]. rewrite app_nil_r. apply fine_app; [apply fine_str; reflexivity|]. apply fine_app; [|apply fine_str; reflexivity].
    eapply IH; [|eassumption]. cbn in L. lia.
Qed.

(** ** Where [Copy] is derived *)
(** The types that are [Copy] by the declarations; the strings of the crate are references. *)
Inductive Copies : rty -> Prop :=
| Co_str : Copies (Ty "str" [])
| Co_bool : Copies (Ty "bool" [])
| Co_option t : Copies t -> Copies (Ty "Option" [t])
| Co_tuple ts : Forall Copies ts -> Copies (TyTuple ts)
| Co_struct ds n vs fields args : In (IStruct ds n vs fields) crate_items -> In "Copy" ds -> length args = length vs -> Forall Copies args -> Copies (Ty n args)
| Co_enum ds n vs : In (IEnum ds n vs) crate_items -> In "Copy" ds -> Copies (Ty n []).
(** Without a vector or a box. *)
Fixpoint flat (v : value) : bool :=
  match v with
  | VTup l => forallb flat l
  | VVec _ => false
  | VCon c l => negb (String.eqb c "Box::new") && forallb flat l
  | VData _ _ fs => forallb (fun f => flat (snd f)) fs
  | _ => true
  end.
Definition has (x : string) (l : list string) : bool := existsb (String.eqb x) l.
Lemma has_In x l : has x l = true <-> In x l.
Proof.
  unfold has. rewrite existsb_exists. split; [intros (y & H & E); apply String.eqb_eq in E; subst; exact H|intros H; exists x; split; [exact H|apply String.eqb_refl]].
Qed.
(** [copies vs t] with type variables [vs] that are [Copy]. *)
Fixpoint copies (vs : list string) (t : rty) : bool :=
  match t with
  | TyTuple ts => forallb (copies vs) ts
  | Ty n args =>
      has n vs ||
      match args with [] => has n ["str"; "bool"] | [a] => String.eqb n "Option" && copies vs a | _ => false end ||
      match lookup n structs with
      | Some (ds, (ws, _)) => has "Copy" ds && Nat.eqb (length args) (length ws) && forallb (copies vs) args
      | None => false
      end ||
      match args, lookup n enum_decls with [], Some (ds, _) => has "Copy" ds | _, _ => false end
  end.
Lemma lookup_some vs (args : list rty) n : length args = length vs -> has n vs = true -> exists t, lookup n (combine vs args) = Some t /\ In t args.
Proof.
  revert args. induction vs as [|v vs IH]; intros [|a args] L H; try discriminate. cbn in H. cbn [combine lookup]. destruct (String.eqb n v) eqn:E.
  - exists a. split; [reflexivity|left; reflexivity].
  - destruct (IH args ltac:(injection L; auto) H) as (t & Ht & I). exists t. split; [exact Ht|right; exact I].
Qed.
Lemma lookup_none vs args n : has n vs = false -> lookup n (combine vs args : tenv) = None.
Proof.
  revert args. induction vs as [|v vs IH]; intros [|a args] H; try reflexivity. cbn in H. apply orb_false_iff in H. destruct H as [H H']. cbn [combine lookup]. rewrite H. apply IH, H'.
Qed.
Lemma rsz_in (t : rty) l n : In t l -> S (list_sum (map rsz l)) <= S n -> rsz t <= n.
Proof. induction l as [|y l IH]; [intros []|]. cbn [map list_sum fold_right]. change (fold_right plus 0 (map rsz l)) with (list_sum (map rsz l)). intros [->|H] L; [lia|]. apply IH in H; lia. Qed.
Lemma copies_ok vs args n : length args = length vs -> Forall Copies args -> forall t, rsz t <= n -> copies vs t = true -> Copies (subst (combine vs args) t).
Proof.
  intros Ln F. induction n as [|n IH]; intros t L H; [destruct t; cbn in L; lia|].
  assert (M : forall l, S (list_sum (map rsz l)) <= S n -> forallb (copies vs) l = true -> Forall Copies (map (subst (combine vs args)) l)).
  { intros l Ll Hl. apply Forall_map, Forall_forall. intros t' Ht. rewrite forallb_forall in Hl. apply IH; [eapply rsz_in; eassumption|auto]. }
  destruct t as [m l|l]; cbn [copies] in H; cbn [subst].
  - destruct (has m vs) eqn:V.
    + destruct (lookup_some _ _ _ Ln V) as (t & -> & I). exact (proj1 (Forall_forall _ _) F _ I).
    + rewrite (lookup_none _ _ _ V). cbn [orb] in H. apply orb_true_iff in H. destruct H as [H|H]; [apply orb_true_iff in H; destruct H as [H|H]|].
      * destruct l as [|a [|? ?]]; [|apply andb_prop in H; destruct H as [H H']; apply String.eqb_eq in H; subst m|discriminate].
        -- pose proof (proj1 (has_In _ _) H) as K. cbn [In] in K. destruct K as [K|[K|K]]; [subst m; constructor|subst m; constructor|destruct K].
        -- cbn [map]. apply Co_option. apply IH; [cbn in L; lia|exact H'].
      * destruct (lookup m structs) as [[ds [ws fs]]|] eqn:Lk; [|discriminate]. rewrite !andb_true_iff in H. destruct H as [[H1 H2] H3]. apply Nat.eqb_eq in H2. apply has_In in H1.
        eapply Co_struct; [apply struct_In; exact Lk|exact H1|rewrite map_length; exact H2|]. apply M; [cbn in L; exact L|exact H3].
      * destruct l as [|? ?]; [|discriminate]. destruct (lookup m enum_decls) as [[ds ws]|] eqn:Lk; [|discriminate]. apply has_In in H. eapply Co_enum; [apply enum_In; exact Lk|exact H].
  - apply Co_tuple. apply M; [cbn in L; exact L|exact H].
Qed.
(** Deriving [Copy] is legal: the parts are [Copy]. *)
Definition parts_copy (i : item) : bool :=
  match i with IStruct _ _ vs fs => forallb (fun f => copies vs (snd f)) fs | IEnum _ _ vs => forallb (fun v => copies [] (snd v)) vs | _ => false end.
Definition copy_exact (i : item) : bool :=
  match i with
  | IStruct ds n _ _ => Bool.eqb (has "Copy" ds) (parts_copy i)
  | IEnum ds n _ => Bool.eqb (has "Copy" ds || String.eqb n "ConstType") (parts_copy i)
  | _ => true
  end.
Lemma all_copy_exact : forallb copy_exact crate_items = true.
Proof. vm_compute. reflexivity. Qed.
Theorem struct_copy ds n vs fields : In (IStruct ds n vs fields) crate_items -> In "Copy" ds ->
  forall args, length args = length vs -> Forall Copies args -> Forall (fun f => Copies (subst (combine vs args) (snd f))) fields.
Proof.
  intros H C args L F. pose proof all_copy_exact as E. rewrite forallb_forall in E. specialize (E _ H). cbn [copy_exact] in E. apply has_In in C. rewrite C in E.
  apply eqb_prop in E. symmetry in E. cbn [parts_copy] in E. apply Forall_forall. intros f Hf. rewrite forallb_forall in E. eapply copies_ok; [exact L|exact F|reflexivity|exact (E _ Hf)].
Qed.
Lemma subst_nil n : forall t, rsz t <= n -> subst [] t = t.
Proof.
  induction n as [|n IH]; intros t L; [destruct t; cbn in L; lia|]. destruct t as [m l|l]; cbn [subst lookup]; f_equal; rewrite <- (map_id l) at 2; apply map_ext_in; intros t Ht; apply IH; eapply rsz_in; try exact Ht; cbn in L; exact L.
Qed.
Theorem enum_copy ds n vs : In (IEnum ds n vs) crate_items -> In "Copy" ds \/ n = "ConstType" -> Forall (fun v => Copies (snd v)) vs.
Proof.
  intros H C. pose proof all_copy_exact as E. rewrite forallb_forall in E. specialize (E _ H). cbn [copy_exact] in E.
  assert (X : has "Copy" ds || String.eqb n "ConstType" = true) by (apply orb_true_iff; destruct C as [C| ->]; [left; apply has_In; exact C|right; reflexivity]). rewrite X in E.
  apply eqb_prop in E. symmetry in E. cbn [parts_copy] in E. apply Forall_forall. intros f Hf. rewrite forallb_forall in E. specialize (E _ Hf).
  pose proof (copies_ok [] [] _ eq_refl (Forall_nil _) _ (le_n _) E) as K. cbn [combine] in K. rewrite (subst_nil _ _ (le_n _)) in K. exact K.
Qed.
(** A copy never shares or repeats memory on the heap. *)
Theorem copies_flat t v : Copies t -> wt v t -> flat v = true.
Proof.
  remember (sz v) as n eqn:E. assert (L : sz v <= n) by lia. clear E. revert v t L. induction n as [|n IH]; intros v t L C W; [destruct v; cbn in L; lia|].
  inversion C as [| |t' Ct|ts Ct|ds m vs fields args I D Ln Ca|ds m vs I D]; subst; cbn [sz] in L.
  - apply str_inv in W. destruct W as [s ->]. reflexivity.
  - apply bool_inv in W. destruct W as [s ->]. reflexivity.
  - apply option_inv in W. destruct W as [->|(x & -> & W)]; [reflexivity|]. cbn. rewrite (IH x t'); [reflexivity|cbn in L; lia|assumption..].
  - apply tuple_inv in W. destruct W as (l & -> & W). cbn [flat]. apply forallb_forall. intros x Hx. destruct (Forall2_In _ _ _ _ _ _ W Hx) as (u & Hu & Wx).
    apply (IH x u); [eapply sz_in; [exact Hx|cbn in L; exact L]|exact (proj1 (Forall_forall _ _) Ct _ Hu)|exact Wx].
  - pose proof (struct_lookup _ _ _ _ I) as Lk. destruct (struct_plain _ _ Lk) as [_ Hn]. destruct (inv_struct _ _ _ _ _ _ W Lk Hn) as (fs & -> & G). cbn [flat]. apply forallb_forall. intros f Hf.
    destruct (Forall2_In _ _ _ _ _ _ G Hf) as (d & Hd & _ & Wf). eapply IH; [eapply sz_in_field; [exact Hf|cbn in L; exact L]| |exact Wf].
    exact (proj1 (Forall_forall _ _) (struct_copy _ _ _ _ I D _ Ln Ca) _ Hd).
  - pose proof (enum_lookup _ _ _ I) as Lk. destruct (enum_plain _ _ _ Lk) as [_ Hn]. destruct (inv_enum _ _ _ _ W Lk Hn) as (c & t' & x & -> & Hc & Wx). cbn [flat forallb snd]. rewrite andb_true_r.
    apply (IH x t'); [cbn in L; lia|exact (proj1 (Forall_forall _ _) (enum_copy _ _ _ I (or_introl D)) _ Hc)|exact Wx].
Qed.
Lemma const_type_flat v : wt v (Ty "ConstType" []) -> flat v = true.
Proof.
  intros W. assert (E : exists ds vs, lookup "ConstType" enum_decls = Some (ds, vs)) by (eexists _, _; vm_compute; reflexivity). destruct E as (ds & vs & Lk).
  destruct (enum_plain _ _ _ Lk) as [_ Hn]. destruct (inv_enum _ _ _ _ W Lk Hn) as (c & t' & x & -> & Hc & Wx). cbn [flat forallb snd]. rewrite andb_true_r.
  eapply copies_flat; [|exact Wx]. exact (proj1 (Forall_forall _ _) (enum_copy _ _ _ (enum_In _ _ _ Lk) (or_intror eq_refl)) _ Hc).
Qed.
(** All other types have values with a vector or a box, inside the result of [parse] on one of two texts. *)
Definition heap_text : text := str "typedef record<sequence<long>, long> R; interface I { sequence<long> f(); };".
Definition heap_result : value :=
  Eval vm_compute in match parse heap_text with Parsed defs => VVec (map enc_Definition defs) | _ => VStr [] end.
Lemma heap_run : exists N, forall n, N <= n -> call n (CFn "parse") [VStr heap_text] = Val (VCon "Ok" [heap_result]).
Proof.
  destruct (parse_source heap_text) as [N HN]. exists N. intros n Hn. rewrite (HN n Hn).
  assert (E : match parse heap_text with Parsed defs => VVec (map enc_Definition defs) | _ => VStr [] end = heap_result) by (vm_compute; reflexivity).
  destruct (parse heap_text) as [defs|e| |]; try discriminate E. cbn [outcome_answer]. unfold enc_Vec. rewrite E. reflexivity.
Qed.
Definition heap_part (n : string) (l : list (value * rty)) : bool := existsb (fun p => match snd p with Ty m _ => String.eqb n m && negb (flat (fst p)) | _ => false end) l.
Definition not_copied (i : item) : list string :=
  match i with IStruct ds n _ _ => if has "Copy" ds then [] else [n] | IEnum ds n _ => if has "Copy" ds || String.eqb n "ConstType" then [] else [n] | _ => [] end.
Lemma all_heap : forallb (fun i => forallb (fun n => heap_part n sample_tparts || heap_part n (tparts heap_result ty_result)) (not_copied i)) crate_items = true.
Proof. vm_compute. reflexivity. Qed.
Lemma heap_value n v : heap_part n (tparts v ty_result) = true -> exists args w, PartOf w (Ty n args) v ty_result /\ flat w = false.
Proof.
  intros H. apply existsb_exists in H. destruct H as ([w t] & Hp & H). cbn [fst snd] in H. destruct t as [m args|]; [|discriminate]. apply andb_prop in H. destruct H as [H H'].
  apply String.eqb_eq in H. subst m. exists args, w. split; [|apply negb_true_iff; exact H']. apply (tparts_Part _ _ (sz v)); auto.
Qed.
Theorem not_copy_heap i n : In i crate_items -> In n (not_copied i) ->
  exists raw v args w, (exists N, forall k, N <= k -> call k (CFn "parse") [VStr raw] = Val (VCon "Ok" [v])) /\ PartOf w (Ty n args) v ty_result /\ flat w = false.
Proof.
  intros H K. pose proof all_heap as E. rewrite forallb_forall in E. specialize (E _ H). cbn beta in E. rewrite forallb_forall in E. specialize (E _ K). cbn beta in E.
  apply orb_true_iff in E. destruct E as [E|E]; apply heap_value in E; destruct E as (args & w & P); eexists _, _, args, w; (split; [|exact P]); [exact sample_run|exact heap_run].
Qed.
Theorem not_copy_needed i n : In i crate_items -> (exists ds vs fields, i = IStruct ds n vs fields /\ ~ In "Copy" ds) \/
    (exists ds vs, i = IEnum ds n vs /\ ~ In "Copy" ds /\ n <> "ConstType") ->
  exists raw v args w, (exists N, forall k, N <= k -> call k (CFn "parse") [VStr raw] = Val (VCon "Ok" [v])) /\ PartOf w (Ty n args) v (Ty "Vec" [Ty "Definition" []]) /\ flat w = false.
Proof.
  intros H K. apply (not_copy_heap _ _ H). destruct K as [(ds & vs & fs & -> & D)|(ds & vs & -> & D & C)]; cbn [not_copied]; (destruct (has "Copy" ds) eqn:E; [apply has_In in E; contradiction|]).
  - left. reflexivity.
  - destruct (String.eqb_spec n "ConstType"); [contradiction|]. left. reflexivity.
Qed.
Definition const_type : option (list string * list (string * rty)) := Eval vm_compute in lookup "ConstType" enum_decls.
Theorem const_type_copy : exists ds n vs, In (IEnum ds n vs) crate_items /\ ~ In "Copy" ds /\ Forall (fun v => Copies (snd v)) vs /\ (forall v, wt v (Ty n []) -> flat v = true).
Proof.
  assert (E : lookup "ConstType" enum_decls = const_type) by (vm_compute; reflexivity). unfold const_type in E. apply enum_In in E.
  eexists _, "ConstType", _. split; [exact E|]. split; [intros H; apply has_In in H; discriminate H|]. split; [exact (enum_copy _ _ _ E (or_intror eq_refl))|exact const_type_flat].
Qed.
Theorem copies_examples : Copies (Ty "MayBeNull" [Ty "IntegerType" []]) /\ Copies (Ty "Parenthesized" [TyTuple [Ty "bool" []; Ty "Identifier" []]]) /\
  ~ Copies (Ty "Type" []) /\ ~ Copies (Ty "ConstType" []).
Proof.
  assert (K : forall t, copies [] t = true -> Copies t).
  { intros t H. pose proof (copies_ok [] [] _ eq_refl (Forall_nil _) _ (le_n _) H) as C. cbn [combine] in C. rewrite (subst_nil _ _ (le_n _)) in C. exact C. }
  assert (N : forall n, lookup n structs = None -> match lookup n enum_decls with Some (ds, _) => has "Copy" ds | None => true end = false -> ~ In n ["str"; "bool"] -> ~ Copies (Ty n [])).
  { intros n S E B C. inversion C; subst.
    - apply B. left. reflexivity.
    - apply B. right. left. reflexivity.
    - match goal with H : In (IStruct _ _ _ _) _ |- _ => apply struct_lookup in H; rewrite H in S; discriminate S end.
    - match goal with H : In (IEnum _ _ _) _ |- _ => apply enum_lookup in H; rewrite H in E end. match goal with H : In "Copy" _ |- _ => apply has_In in H; rewrite H in E; discriminate E end. }
  split; [apply K; vm_compute; reflexivity|]. split; [apply K; vm_compute; reflexivity|].
  split; apply N; try (vm_compute; reflexivity); cbn; intros [H|[H|[]]]; discriminate H.
Qed.
(** ** The output of [Debug] on results *)
Theorem debug_model o t A P enc : ImplFor t A P enc -> forall x y, debug o (enc x) = debug o (enc y) <-> x = y.
Proof.
  intros I x y. split; [|intros ->; reflexivity]. intros E. apply (enc_injective _ _ _ _ I).
  pose proof (proj2 (impl_values _ _ _ _ I (enc x)) (ex_intro _ x eq_refl)) as Wx. pose proof (proj2 (impl_values _ _ _ _ I (enc y)) (ex_intro _ y eq_refl)) as Wy.
  apply (debug_inj o _ _ _ Wx Wy [] []). rewrite !app_nil_r. exact E.
Qed.
Theorem debug_parse o raw raw' : exists N, forall n v v', N <= n ->
  call n (CFn "parse") [VStr raw] = Val (VCon "Ok" [v]) -> call n (CFn "parse") [VStr raw'] = Val (VCon "Ok" [v']) -> (debug o v = debug o v' <-> v = v').
Proof.
  destruct (parse_typed raw) as [N H], (parse_typed raw') as [N' H']. exists (N + N'). intros n v v' L C C'. split; [|intros ->; reflexivity]. intros E.
  apply (debug_inj o _ _ _ (H n v ltac:(lia) C) (H' n v' ltac:(lia) C') [] []). rewrite !app_nil_r. exact E.
Qed.
