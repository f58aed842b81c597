(** * What is hashed: the bytes that [Hash] gives to the hasher *)
From Coq Require Import String Ascii NArith Arith Bool List Lia.
From Verif Require Import Source Rust Crate Interp Embed SourceLex SourceProps SourceWt SourceOnto SourceFacts Live SourceDerive.
From Verif Require Import Nom Lex Bytes Utf8.
Import ListNotations.
Open Scope string_scope.
Open Scope list_scope.

(** ** The bytes *)
(** Not code of the crate: [#[derive(Hash)]] (src/macros.rs:191, 232 and 411, src/term.rs:5 and 42) and the [Hash] of the standard library for strings,
    booleans, options, boxes, vectors and tuples.  An [isize] or [usize] has [width] bytes (4 or 8), in one of the two orders. *)
Record machine : Type := { width : nat; big : bool }.
Fixpoint low (k : nat) (n : N) : bytes := match k with 0 => [] | S k => N.modulo n 256 :: low k (N.div n 256) end.
Definition word (m : machine) (n : N) : bytes := if big m then rev (low (width m) n) else low (width m) n.
(** The number of a variant. *)
Fixpoint index (v : string) (vs : list (string * rty)) : N :=
  match vs with [] => 0 | d :: vs => if String.eqb v (fst d) then 0 else N.succ (index v vs) end%N.
Definition variant_number (t v : string) : N := match lookup t enum_decls with Some (_, vs) => index v vs | None => 0%N end.
(** A string ends with the byte 255; a vector begins with its length; an enum (all of them have two or more variants) and an option with the number of its
    variant; all else is written without anything around it. *)
Fixpoint hashed (m : machine) (v : value) : bytes :=
  match v with
  | VStr s => encode s ++ [255%N]
  | VBool b => [if b then 1%N else 0%N]
  | VTup l => flat_map (hashed m) l
  | VVec l => word m (N.of_nat (length l)) ++ flat_map (hashed m) l
  | VCon c l =>
      if String.eqb c "Box::new" then flat_map (hashed m) l
      else word m (if String.eqb c "Some" then 1 else 0)%N ++ flat_map (hashed m) l
  | VData t v fs => (if String.eqb v "" then [] else word m (variant_number t v)) ++ flat_map (fun f => hashed m (snd f)) fs
  | VChr _ | VBytes _ | VNom _ | VKind _ => []                    (* not in trees *)
  end.
(** What fits into memory: strings are UTF-8, lengths are a [usize]. *)
Definition scalar_b (c : N) : bool := N.ltb c 55296 || N.leb 57344 c && N.ltb c 1114112.
Fixpoint in_memory (m : machine) (v : value) : bool :=
  match v with
  | VStr s => forallb scalar_b s
  | VTup l => forallb (in_memory m) l
  | VVec l => N.ltb (N.of_nat (length l)) (256 ^ N.of_nat (width m)) && forallb (in_memory m) l
  | VCon _ l => forallb (in_memory m) l
  | VData _ _ fs => forallb (fun f => in_memory m (snd f)) fs
  | _ => true
  end.

(** ** They determine the value *)
Lemma low_length k : forall n, length (low k n) = k.
Proof. induction k as [|k IH]; intros n; cbn; [reflexivity|rewrite IH; reflexivity]. Qed.
Lemma low_inj k : forall a b, (a < 256 ^ N.of_nat k)%N -> (b < 256 ^ N.of_nat k)%N -> low k a = low k b -> a = b.
Proof.
  induction k as [|k IH]; intros a b A B E; [cbn in A, B; lia|]. rewrite Nat2N.inj_succ, N.pow_succ_r' in A, B. cbn [low] in E. injection E as E1 E2.
  apply IH in E2; [|apply N.div_lt_upper_bound; lia..]. rewrite (N.div_mod a 256), (N.div_mod b 256), E1, E2 by discriminate. reflexivity.
Qed.
Lemma app_inj_length {A} (a b : list A) : forall r r', length a = length b -> a ++ r = b ++ r' -> a = b /\ r = r'.
Proof. revert b. induction a as [|x a IH]; intros [|y b] r r' L E; try discriminate L; cbn in E; [auto|]. injection E as -> E. apply IH in E; [|cbn in L; lia]. destruct E as [-> ->]. auto. Qed.
Lemma word_inj m a b r r' : (a < 256 ^ N.of_nat (width m))%N -> (b < 256 ^ N.of_nat (width m))%N -> word m a ++ r = word m b ++ r' -> a = b /\ r = r'.
Proof.
  intros A B E. unfold word in E. apply app_inj_length in E; [|destruct (big m); rewrite ?rev_length, !low_length; reflexivity]. destruct E as [E ->]. split; [|reflexivity].
  apply (low_inj (width m)); [assumption..|]. destruct (big m); [|exact E]. rewrite <- (rev_involutive (low _ a)), E, rev_involutive. reflexivity.
Qed.
Lemma scalar_b_ok s : forallb scalar_b s = true -> Scalars s.
Proof. apply Scalars_dec. Qed.
Lemma utf8_255 c : scalar c -> ~ In 255%N (utf8 c).
Proof.
  intros H K. destruct (utf8_cases c H) as [[H1 E]|[(x & y & E & H1)|[(x & y & z & E & H1)|(x & y & z & w & E & H1)]]]; rewrite E in K; cbn [In] in K; decompose sum K; lia.
Qed.
Lemma encode_255 s : Scalars s -> ~ In 255%N (encode s).
Proof. intros H K. unfold encode in K. apply in_flat_map in K. destruct K as (c & Hc & K). exact (utf8_255 _ (proj1 (Forall_forall _ _) H _ Hc) K). Qed.
Lemma hash_str s s' r r' : Scalars s -> Scalars s' -> (encode s ++ [255%N]) ++ r = (encode s' ++ [255%N]) ++ r' -> s = s' /\ r = r'.
Proof.
  intros H K E. rewrite <- !app_assoc in E. cbn [app] in E. apply word_end in E; [|apply encode_255; assumption..]. destruct E as [E ->]. split; [exact (encode_inj s H s' K E)|reflexivity].
Qed.
Lemma index_inj vs v w : In v (map fst vs) -> In w (map fst vs) -> index v vs = index w vs -> v = w.
Proof.
  induction vs as [|[x t] vs IH]; cbn [map fst index]; [intros []|]. intros V W E. destruct (String.eqb_spec v x), (String.eqb_spec w x); subst; auto; [lia|lia|].
  apply IH; [destruct V; [congruence|assumption]|destruct W; [congruence|assumption]|lia].
Qed.
Lemma index_bound vs v : (index v vs <= N.of_nat (length vs))%N.
Proof. induction vs as [|[x t] vs IH]; cbn [index length]; [lia|]. destruct (String.eqb _ _); lia. Qed.
Lemma numbers_small t v m : 0 < width m -> (variant_number t v < 256 ^ N.of_nat (width m))%N.
Proof.
  intros H. assert (B : (variant_number t v < 256)%N).
  { unfold variant_number. destruct (lookup t enum_decls) as [[ds vs]|] eqn:L; [|lia]. apply lookup_In in L.
    assert (E : forallb (fun d => N.ltb (N.of_nat (length (snd (snd d)))) 256) enum_decls = true) by (vm_compute; reflexivity).
    rewrite forallb_forall in E. specialize (E _ L). cbn [snd] in E. apply N.ltb_lt in E. pose proof (index_bound vs v). lia. }
  destruct (width m) as [|k]; [lia|]. rewrite Nat2N.inj_succ, N.pow_succ_r'. assert (0 < 256 ^ N.of_nat k)%N by (apply N.neq_0_lt_0, N.pow_nonzero; discriminate). nia.
Qed.
Lemma small_bit m (n : N) : 0 < width m -> (n <= 1)%N -> (n < 256 ^ N.of_nat (width m))%N.
Proof.
  intros H L. destruct (width m) as [|k]; [lia|]. rewrite Nat2N.inj_succ, N.pow_succ_r'. assert (0 < 256 ^ N.of_nat k)%N by (apply N.neq_0_lt_0, N.pow_nonzero; discriminate). nia.
Qed.
(** Equal bytes, with anything behind them. *)
Definition Equal (m : machine) (u v : value) : Prop := forall r r', hashed m u ++ r = hashed m v ++ r' -> u = v /\ r = r'.
Lemma hash_list m l : forall l' r r', Forall2 (Equal m) l l' -> flat_map (hashed m) l ++ r = flat_map (hashed m) l' ++ r' -> l = l' /\ r = r'.
Proof.
  induction l as [|x l IH]; intros l' r r' F E; inversion F as [|? y ? m' S F']; subst; cbn [flat_map app] in E; [auto|].
  rewrite <- !app_assoc in E. apply S in E. destruct E as [-> E]. apply IH in E; [|exact F']. destruct E as [-> ->]. auto.
Qed.
Lemma hash_fields m l : forall l' r r', Forall2 (fun f g => fst f = fst g /\ Equal m (snd f) (snd g)) l l' ->
  flat_map (fun f : string * value => hashed m (snd f)) l ++ r = flat_map (fun f => hashed m (snd f)) l' ++ r' -> l = l' /\ r = r'.
Proof.
  induction l as [|[a x] l IH]; intros l' r r' F E; inversion F as [|? [b y] ? m' [N S] F']; subst; cbn [flat_map app fst snd] in *; [auto|]. subst b.
  rewrite <- !app_assoc in E. apply S in E. destruct E as [-> E]. apply IH in E; [|exact F']. destruct E as [-> ->]. auto.
Qed.
Theorem hash_inj m u v t : 0 < width m -> wt u t -> wt v t -> in_memory m u = true -> in_memory m v = true -> forall r r', hashed m u ++ r = hashed m v ++ r' -> u = v /\ r = r'.
Proof.
  intros Hm. remember (sz u) as n eqn:E. assert (L : sz u <= n) by lia. clear E. revert u v t L. induction n as [|n IH]; intros u v t L W K M M'; [destruct u; cbn in L; lia|].
  assert (IHl : forall l l' ts, list_sum (map sz l) <= n -> Forall2 wt l ts -> Forall2 wt l' ts -> forallb (in_memory m) l = true -> forallb (in_memory m) l' = true -> Forall2 (Equal m) l l').
  { intros l l' ts Ll F. revert l'. induction F as [|x t' l ts Hx _ IHF]; intros l' G A B; inversion G; subst; constructor; cbn [forallb] in A, B; apply andb_prop in A, B; destruct A as [A1 A2], B as [B1 B2].
    - cbn [map list_sum fold_right] in Ll. intros r r'. apply (IH x _ t'); [lia|assumption..].
    - cbn [map list_sum fold_right] in Ll. apply IHF; [|assumption..]. unfold list_sum. lia. }
  assert (IHf : forall fs gs s fields, list_sum (map (fun f => sz (snd f)) fs) <= n ->
     Forall2 (fun (f : string * value) (d : string * rty) => fst f = fst d /\ wt (snd f) (subst s (snd d))) fs fields ->
     Forall2 (fun (f : string * value) (d : string * rty) => fst f = fst d /\ wt (snd f) (subst s (snd d))) gs fields ->
     forallb (fun f => in_memory m (snd f)) fs = true -> forallb (fun f => in_memory m (snd f)) gs = true -> Forall2 (fun f g => fst f = fst g /\ Equal m (snd f) (snd g)) fs gs).
  { intros fs gs s fields Ll F. revert gs. induction F as [|x t' l ts [N Hx] _ IHF]; intros l' G A B; inversion G as [|? ? ? ? [N' Hy] G']; subst; constructor; cbn [forallb] in A, B; apply andb_prop in A, B; destruct A as [A1 A2], B as [B1 B2].
    - cbn [map list_sum fold_right] in Ll. split; [congruence|]. intros r r'. apply (IH _ _ (subst s (snd t'))); [lia|assumption..].
    - cbn [map list_sum fold_right] in Ll. apply IHF; [|assumption..]. unfold list_sum. lia. }
  assert (Vec : forall l l' t', length l = length l' -> list_sum (map sz l) <= n -> Forall (fun x => wt x t') l -> Forall (fun x => wt x t') l' ->
     forallb (in_memory m) l = true -> forallb (in_memory m) l' = true -> Forall2 (Equal m) l l').
  { intros l l' t' Hl Ll F G. apply (IHl l l' (map (fun _ => t') l) Ll).
    - clear -F. induction F; constructor; assumption.
    - revert l' Hl G. clear -l. induction l as [|x l IHl]; intros [|y l'] Hl G; try discriminate Hl; constructor; inversion G; subst; auto. }
  intros r r' E. inversion W; subst; cbn [sz] in L; cbn [in_memory] in M.
  - apply str_inv in K. destruct K as [s' ->]. cbn [hashed] in E. cbn [in_memory] in M'. apply hash_str in E; [|apply scalar_b_ok; assumption..]. destruct E as [-> ->]. auto.
  - apply bool_inv in K. destruct K as [b' ->]. cbn [hashed app] in E. injection E as E ->. destruct b, b'; try discriminate E; auto.
  - apply option_inv in K. destruct K as [->|(x & -> & _)]; cbn [hashed String.eqb Ascii.eqb Bool.eqb flat_map] in E; rewrite <- ?app_assoc in E; apply word_inj in E; try (apply small_bit; [exact Hm|lia]); destruct E as [E E']; [cbn in E'; subst; auto|discriminate E].
  - apply option_inv in K. destruct K as [->|(x & -> & K)]; cbn [hashed String.eqb Ascii.eqb Bool.eqb flat_map] in E; rewrite <- ?app_assoc in E; apply word_inj in E; try (apply small_bit; [exact Hm|lia]); destruct E as [E E']; [discriminate E|].
    cbn [app] in E'. cbn [in_memory forallb] in M, M'. rewrite andb_true_r in M, M'. apply IH with (t := t0) in E'; [|cbn in L; lia|assumption..]. destruct E' as [-> ->]. auto.
  - apply box_inv in K. destruct K as (x & -> & K). cbn [hashed String.eqb Ascii.eqb Bool.eqb flat_map] in E. rewrite !app_nil_r in E.
    cbn [in_memory forallb] in M, M'. rewrite andb_true_r in M, M'. apply IH with (t := t0) in E; [|cbn in L; lia|assumption..]. destruct E as [-> ->]. auto.
  - apply vec_inv in K. destruct K as (l' & -> & K). cbn [in_memory] in M'. apply andb_prop in M, M'. destruct M as [M1 M2], M' as [M1' M2']. apply N.ltb_lt in M1, M1'.
    cbn [hashed] in E. rewrite <- !app_assoc in E. apply word_inj in E; [|assumption..]. destruct E as [El E]. apply hash_list in E; [destruct E as [-> ->]; auto|].
    apply (Vec l l' t0); [lia|lia|assumption..].
  - apply tuple_inv in K. destruct K as (l' & -> & K). cbn [hashed] in E. cbn [in_memory] in M'. apply hash_list in E; [destruct E as [-> ->]; auto|]. apply (IHl l l' ts); [lia|assumption..].
  - pose proof (struct_lookup _ _ _ _ H) as Lk. destruct (struct_plain _ _ Lk) as [_ Hn]. destruct (inv_struct _ _ _ _ _ _ K Lk Hn) as (gs & -> & G). cbn [in_memory] in M'.
    cbn [hashed String.eqb app] in E. apply hash_fields in E; [destruct E as [-> ->]; auto|]. eapply IHf; [lia|eassumption..].
  - pose proof (enum_lookup _ _ _ H) as Lk. destruct (enum_plain _ _ _ Lk) as [Pl Hn]. destruct (inv_enum _ _ _ _ K Lk Hn) as (c & t' & y & -> & Hc & Wy).
    pose proof (Pl _ _ H0) as P1. pose proof (Pl _ _ Hc) as P2. cbn [hashed] in E.
    destruct (String.eqb_spec v0 ""); [subst; discriminate P1|]. destruct (String.eqb_spec c ""); [subst; discriminate P2|].
    cbn [flat_map fst snd] in E. rewrite <- !app_assoc in E. cbn [app] in E. apply word_inj in E; [|apply numbers_small; exact Hm..]. destruct E as [E1 E2].
    assert (v0 = c) by (unfold variant_number in E1; rewrite Lk in E1; apply (index_inj variants); [apply in_map_iff; eexists (_, _); split; [reflexivity|eassumption]..|exact E1]). subst c.
    pose proof (variants_once _ _ _ _ _ _ Lk H0 Hc). subst t'. cbn [in_memory forallb snd] in M, M'. rewrite andb_true_r in M, M'.
    apply IH with (t := t0) in E2; [|cbn in L; lia|assumption..]. destruct E2 as [-> ->]. auto.
Qed.
(** All enums have two or more variants. *)
Lemma enums_two ds n vs : In (IEnum ds n vs) crate_items -> 2 <= length vs.
Proof.
  intros H. assert (E : forallb (fun i => match i with IEnum _ _ vs => Nat.leb 2 (length vs) | _ => true end) crate_items = true) by (vm_compute; reflexivity).
  rewrite forallb_forall in E. exact (proj1 (Nat.leb_le _ _) (E _ H)).
Qed.
Theorem hash_model m t A P enc : 0 < width m -> ImplFor t A P enc -> forall x y, in_memory m (enc x) = true -> in_memory m (enc y) = true -> (hashed m (enc x) = hashed m (enc y) <-> x = y).
Proof.
  intros Hm I x y X Y. split; [|intros ->; reflexivity]. intros E. apply (enc_injective _ _ _ _ I).
  pose proof (proj2 (impl_values _ _ _ _ I (enc x)) (ex_intro _ x eq_refl)) as Wx. pose proof (proj2 (impl_values _ _ _ _ I (enc y)) (ex_intro _ y eq_refl)) as Wy.
  apply (hash_inj m _ _ _ Hm Wx Wy X Y [] []). rewrite !app_nil_r. exact E.
Qed.
