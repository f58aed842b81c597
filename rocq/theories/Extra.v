(** * Consequences that other files have no place for *)
From Coq Require Import String Ascii NArith Arith Bool List Lia.
From Verif Require Import Nom Lex Ast Grammar Spec RunFacts LexFacts TokFacts TermFacts LexProps Api ApiFacts Exact Frag.
Import ListNotations.
Open Scope list_scope.

(** The lists with a terminal as separator that the grammar uses (Grammar.v) are instances of the generic ones (Api.v). *)
Lemma Punctuated_instance A (p : pexp A) c : e_Punctuated p c = e_PunctuatedBy p (T_ c).
Proof. reflexivity. Qed.
Lemma PunctuatedNonEmpty_instance A (p : pexp A) c : e_PunctuatedNonEmpty p c = e_PunctuatedNonEmptyBy p (T_ c).
Proof. reflexivity. Qed.
Lemma enum_nonempty raw defs e : parse raw = Parsed defs -> In (Definition_Enum e) defs -> Enum_values e <> [].
Proof.
  intros H Hin. apply parse_exact in H as (ts & _ & _ & W). unfold wf_Definitions in W. clear -W Hin.
  induction defs as [|d defs IH]; [destruct Hin|]. destruct W as [Wd W], Hin as [->|Hin]; [|apply IH; assumption]. destruct e as [a i v]. apply Wd.
Qed.

(** ** Types that take no [?] *)
Lemma any_exact s rest : parse_as e_Type s = Ok rest (Type_Single SingleType_Any) <-> At (word "any") s rest.
Proof.
  split.
  - intros E. apply (part_sound _ _ _ _ _ Part_Type) in E as (ts & H & HC & _). cbn in HC. inversion HC as [|? ? ? ? HC'| | | | | | | | | | |]; subst. inversion HC'; subst.
    destruct H as (j & H & E). cbn in E. subst. exact H.
  - intros H. unfold parse_as. cbn -[p_term]. unfold alt_or, alt_end, bind, ret. rewrite (proj2 (p_term_At Any s rest tt Logic.I) H). reflexivity.
Qed.
Lemma or_map_ok n A B (f : B -> A) p q i r v : trun n A (POr (PMap f p) q) i = Ok r v ->
  (exists b, trun n B p i = Ok r b /\ v = f b) \/ trun n A q i = Ok r v.
Proof.
  unfold PMap. runs. unfold alt_or, bind. destruct (trun n B p i) as [j b|[]|]; try discriminate; [|auto].
  runs. intros [= <- <-]. eauto.
Qed.
Lemma or_map_first n A B (f : B -> A) p q i r b : trun n B p i = Ok r b -> trun n A (POr (PMap f p) q) i = Ok r (f b).
Proof. intros E. unfold PMap. runs. unfold alt_or, bind. rewrite E. runs. reflexivity. Qed.
Lemma or_map_next n A B (f : B -> A) p q i pos k : trun n B p i = Err (Error pos k) -> trun n A (POr (PMap f p) q) i = trun n A q i.
Proof. intros E. unfold PMap. runs. unfold alt_or, bind. rewrite E. reflexivity. Qed.
Lemma promise_exact s rest t :
  parse_as e_Type s = Ok rest (Type_Single (SingleType_NonAny (NonAnyType_Promise (mkPromiseType t)))) <->
  exists s1 s2 s3, At (word "Promise") s s1 /\ At (TPunct "<") s1 s2 /\ parse_as e_ReturnType s2 = Ok s3 t /\ At (TPunct ">") s3 rest.
Proof.
  assert (P : parse_as e_PromiseType s = Ok rest (mkPromiseType t) <->
    exists s1 s2 s3, At (word "Promise") s s1 /\ At (TPunct "<") s1 s2 /\ parse_as e_ReturnType s2 = Ok s3 t /\ At (TPunct ">") s3 rest).
  { unfold parse_as at 1, e_PromiseType, e_Generics, T_. runs. unfold bind at 1. cbn [text_sem].
    destruct (p_term Promise s) as [s1 []|e|] eqn:E1.
    - apply (p_term_At Promise) in E1; [|exact Logic.I]. runs. unfold bind at 1 2. cbn [text_sem].
      destruct (p_term LessThan s1) as [s2 []|e|] eqn:E2.
      + apply (p_term_At LessThan) in E2; [|exact Logic.I]. runs. unfold bind at 1. rewrite run_nt_S. cbn [grammar].
        assert (L : length s2 < length s) by (pose proof (At_shorter _ _ _ E1); pose proof (At_shorter _ _ _ E2); lia).
        rewrite (run_parse _ _ _ _ _ I_ReturnType L).
        destruct (parse_as e_ReturnType s2) as [s3 t'|e|] eqn:E3.
        * runs. unfold bind at 1. cbn [text_sem]. destruct (p_term GreaterThan s3) as [s4 []|e|] eqn:E4.
          -- apply (p_term_At GreaterThan) in E4; [|exact Logic.I]. runs. split.
             ++ intros [= <- <-]. eauto 10.
             ++ intros (a & b & c & H1 & H2 & H3 & H4). destruct (At_det _ _ _ _ _ E1 H1) as [_ <-]. destruct (At_det _ _ _ _ _ E2 H2) as [_ <-].
                rewrite E3 in H3. injection H3 as <- <-. destruct (At_det _ _ _ _ _ E4 H4) as [_ <-]. reflexivity.
          -- split; [discriminate|]. intros (a & b & c & H1 & H2 & H3 & H4). destruct (At_det _ _ _ _ _ E1 H1) as [_ <-]. destruct (At_det _ _ _ _ _ E2 H2) as [_ <-].
             rewrite E3 in H3. injection H3 as <- <-. apply (p_term_At GreaterThan _ _ tt) in H4; [|exact Logic.I]. congruence.
          -- split; [discriminate|]. intros (a & b & c & H1 & H2 & H3 & H4). destruct (At_det _ _ _ _ _ E1 H1) as [_ <-]. destruct (At_det _ _ _ _ _ E2 H2) as [_ <-].
             rewrite E3 in H3. injection H3 as <- <-. apply (p_term_At GreaterThan _ _ tt) in H4; [|exact Logic.I]. congruence.
        * split; [discriminate|]. intros (a & b & c & H1 & H2 & H3 & H4). destruct (At_det _ _ _ _ _ E1 H1) as [_ <-]. destruct (At_det _ _ _ _ _ E2 H2) as [_ <-]. congruence.
        * split; [discriminate|]. intros (a & b & c & H1 & H2 & H3 & H4). destruct (At_det _ _ _ _ _ E1 H1) as [_ <-]. destruct (At_det _ _ _ _ _ E2 H2) as [_ <-]. congruence.
      + split; [discriminate|]. intros (a & b & c & H1 & H2 & H3 & H4). destruct (At_det _ _ _ _ _ E1 H1) as [_ <-].
        apply (p_term_At LessThan _ _ tt) in H2; [|exact Logic.I]. congruence.
      + split; [discriminate|]. intros (a & b & c & H1 & H2 & H3 & H4). destruct (At_det _ _ _ _ _ E1 H1) as [_ <-].
        apply (p_term_At LessThan _ _ tt) in H2; [|exact Logic.I]. congruence.
    - split; [discriminate|]. intros (a & b & c & H1 & _). apply (p_term_At Promise _ _ tt) in H1; [|exact Logic.I]. congruence.
    - split; [discriminate|]. intros (a & b & c & H1 & _). apply (p_term_At Promise _ _ tt) in H1; [|exact Logic.I]. congruence. }
  rewrite <- P. clear P. unfold parse_as. split.
  - unfold e_Type at 1. cbn [PAlt]. intros E. apply or_map_ok in E as [(x & E & [= <-])|E].
    2: { apply or_map_ok in E as [(x & _ & [=])|E]. rewrite run_end in E. discriminate E. }
    unfold e_SingleType at 1 in E. cbn [PAlt] in E. apply or_map_ok in E as [(x & _ & [=])|E]. apply or_map_ok in E as [(x & E & [= <-])|E].
    2: { rewrite run_end in E. discriminate E. }
    unfold e_NonAnyType at 1 in E. cbn [PAlt] in E. apply or_map_ok in E as [(x & E & [= ->])|E]; [exact E|].
    repeat apply or_map_ok in E as [(x & _ & [=])|E]. rewrite run_end in E. discriminate E.
  - intros E. unfold e_Type at 1. cbn [PAlt]. apply (or_map_first _ _ _ Type_Single).
    assert (HA : exists r, At (word "Promise") s r).
    { unfold e_PromiseType, T_ in E. runs_in E. unfold bind in E. cbn [text_sem] in E.
      destruct (p_term Promise s) as [s1 []|e|] eqn:E1; try discriminate E. exists s1. apply (p_term_At Promise) in E1; [exact E1|exact Logic.I]. }
    destruct HA as (s1 & HA).
    assert (F : exists pos k, p_term Any s = Err (Error pos k)).
    { apply not_ok_err; auto with fine. intros r v E'. apply (p_term_At Any) in E'; [|exact Logic.I]. destruct (At_det _ _ _ _ _ HA E'). discriminate. }
    destruct F as (pos & k & F). unfold e_SingleType at 1. cbn [PAlt]. erewrite or_map_next; [|unfold T_; rewrite run_term; exact F].
    apply (or_map_first _ _ _ SingleType_NonAny). unfold e_NonAnyType at 1. cbn [PAlt]. apply (or_map_first _ _ _ NonAnyType_Promise). exact E.
Qed.
