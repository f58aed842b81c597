(** * The integration tests with the long files

    Evaluation of [parse] on html.webidl takes long (the model measures the text again and again), so the files are cut between
    definitions and the parts are put together by [parse_app] (C31).  Where the files are cut is not essential: what is used is that
    the parts make up the file, and that each part is parsed. *)
From Coq Require Import String Ascii NArith Arith Bool List Lia.
From Verif Require Import Source SourceDefs Rust Crate Interp Embed SourceProps SourceTests
  Nom Lex Bytes Ast Grammar Api ApiFacts Items Exact.
Import ListNotations.
Open Scope list_scope.

(** Cut behind a line that ends with [;] where the next line is not indented. *)
Definition starts (i : text) : bool := match i with c :: _ => N.ltb 32 c && N.ltb c 123 | [] => false end.
Fixpoint cuts (acc : text) (semi : bool) (i : text) : list text :=
  match i with
  | [] => [rev acc]
  | c :: i' =>
      if N.eqb c 10 && semi && starts i' then rev (c :: acc) :: cuts [] false i'
      else cuts (c :: acc) (N.eqb c 59 || semi && N.eqb c 10) i'
  end.
Lemma cuts_all i : forall acc semi, concat (cuts acc semi i) = rev acc ++ i.
Proof.
  induction i as [|c i IH]; intros acc semi; cbn [cuts].
  - cbn [concat]. rewrite !app_nil_r. reflexivity.
  - destruct (N.eqb c 10 && semi && starts i); cbn [concat]; rewrite IH; cbn [rev]; rewrite <- ?app_assoc; reflexivity.
Qed.
(** The number of definitions, part by part. *)
Fixpoint count_parts (l : list text) : option nat :=
  match l with
  | [] => Some 0
  | i :: l' => match parse i, count_parts l' with Parsed d, Some n => Some (length d + n) | _, _ => None end
  end.
Lemma count_parts_parse l : forall n, count_parts l = Some n -> exists d, parse (concat l) = Parsed d /\ length d = n.
Proof.
  induction l as [|i l IH]; intros n; cbn [count_parts concat].
  - intros E. injection E as <-. exists []. split; [vm_compute; reflexivity|reflexivity].
  - destruct (parse i) as [d| | |] eqn:Ei; try discriminate. destruct (count_parts l) as [k|]; [|discriminate]. intros E. injection E as <-.
    destruct (IH _ eq_refl) as (d' & E' & <-). exists (d ++ d'). split; [apply parse_app; assumption|apply app_length].
Qed.
Definition count_file (i : text) : option nat := count_parts (cuts [] false i).
Lemma count_file_parse i n : count_file i = Some n -> exists d, parse i = Parsed d /\ length d = n.
Proof. intros H. apply count_parts_parse in H. rewrite cuts_all in H. exact H. Qed.

(** The text of a file, as [with_files] gives it. *)
Definition file_text (p : string) : text :=
  match find (fun d => text_eqb (str (fst d)) (str p)) defs with Some d => chars (flat_map str (snd d)) | None => [] end.
Definition is_file (p : string) : bool := existsb (fun d => text_eqb (str (fst d)) (str p)) defs.
Lemma read_file cr p : is_file p = true -> with_files cr (CFn "read_file") [VStr (str p)] = Val (VStr (file_text p)).
Proof.
  unfold is_file, with_files, file_text. cbn [String.eqb Ascii.eqb Bool.eqb]. destruct (find _ defs) as [d|] eqn:E; [reflexivity|].
  intros H. apply existsb_exists in H. destruct H as (x & Hx & H). pose proof (find_none _ _ E x Hx) as H'. cbv beta in H'. congruence.
Qed.
(** The files are parsed, with the number of definitions in the tests. *)
Definition numbers : list (string * nat) :=
  [("./tests/defs/dom.webidl", 62); ("./tests/defs/html.webidl", 325); ("./tests/defs/interface-constructor.webidl", 1);
   ("./tests/defs/mediacapture-streams.webidl", 37); ("./tests/defs/streams.webidl", 37); ("./tests/defs/webgpu.webidl", 201)]%string.
Theorem files_parsed : forall p k, In (p, k) numbers -> is_file p = true /\ exists d, parse (file_text p) = Parsed d /\ length d = k.
Proof.
  assert (H : forallb (fun d => is_file (fst d) && match count_file (file_text (fst d)) with Some k => Nat.eqb k (snd d) | None => false end) numbers
    = true) by (vm_cast_no_check (eq_refl true)).
  intros p k Hp. pose proof (proj1 (forallb_forall _ _) H _ Hp) as E. cbn [fst snd] in E. apply andb_prop in E. destruct E as [Ef E].
  split; [exact Ef|]. destruct (count_file (file_text p)) as [k'|] eqn:Ek; [|discriminate]. apply Nat.eqb_eq in E. subst k'.
  apply count_file_parse. exact Ek.
Qed.
(** So [parse] of the source, with enough fuel, gives that many definitions. *)
Lemma files_source p k : In (p, k) numbers -> exists N l, List.length l = k /\ forall n, N <= n ->
  with_files (call n) (CFn "read_file") [VStr (str p)] = Val (VStr (file_text p))
  /\ with_files (call n) (CFn "parse") [VStr (file_text p)] = Val (VCon "Ok" [VVec l])
  /\ outcome_answer (parse (file_text p)) = Val (VCon "Ok" [VVec l]).
Proof.
  intros H. destruct (files_parsed p k H) as (Hf & d & Ed & El). destruct (parse_source (file_text p)) as [N HN].
  exists N, (map enc_Definition d). split; [rewrite map_length; exact El|]. intros n Hn. split; [apply read_file, Hf|]. split.
  - unfold with_files. cbn [String.eqb Ascii.eqb Bool.eqb]. rewrite (HN n Hn), Ed. reflexivity.
  - rewrite Ed. reflexivity.
Qed.
(** A test that compares the number. *)
Definition number_test (p : string) (k : nat) : list tstmt :=
  [TLet (XVar "content") (TCall "read_file" (TStr p));
   TLet (XVar "parsed") (TMethod (TCall "parse" (TVar "content")) "unwrap");
   TEq (TMethod (TVar "parsed") "len") (TNum k)].
(** The first two statements of the tests. *)
Lemma starts_test cr n p i v k : cr (CFn "read_file") [VStr (str p)] = Val (VStr i) -> cr (CFn "parse") [VStr i] = Val (VCon "Ok" [v]) ->
  texec cr (S (S n)) [] (TLet (XVar "content") (TCall "read_file" (TStr p)) :: TLet (XVar "parsed") (TMethod (TCall "parse" (TVar "content")) "unwrap") :: k)
  = texec cr n [("parsed", TV v); ("content", TV (VStr i))]%string k.
Proof.
  intros H1 H2. cbn [texec teval]. rewrite H1. cbn [tbind app]. cbn [texec teval lookup String.eqb Ascii.eqb Bool.eqb fst snd]. rewrite H2.
  reflexivity.
Qed.
Lemma number_test_passes cr p k l i : cr (CFn "read_file") [VStr (str p)] = Val (VStr i) -> cr (CFn "parse") [VStr i] = Val (VCon "Ok" [VVec l]) ->
  List.length l = k -> texec cr tdepth [] (number_test p k) = Pass.
Proof.
  intros H1 H2 <-. change tdepth with (S (S (S (S 96)))). unfold number_test. rewrite (starts_test _ _ _ _ _ _ H1 H2).
  cbn -[List.length]. unfold teq. cbn -[List.length]. rewrite Nat.eqb_refl. reflexivity.
Qed.
(** The last test looks at the one definition. *)
Lemma interface_test_passes cr t : In ("webidl::interface_constructor"%string, t) integration_tests ->
  cr (CFn "read_file") [VStr (str "./tests/defs/interface-constructor.webidl")] = Val (VStr (file_text "./tests/defs/interface-constructor.webidl")) ->
  cr (CFn "parse") [VStr (file_text "./tests/defs/interface-constructor.webidl")]
    = outcome_answer (parse (file_text "./tests/defs/interface-constructor.webidl")) ->
  run_test cr ("webidl::interface_constructor"%string, t) = Pass.
Proof.
  intros Ht H1 H2. assert (Et : t = snd (nth 5 integration_tests ("", None)%string)).
  { unfold integration_tests in Ht. cbn [In] in Ht. repeat (destruct Ht as [Ht|Ht]; [first [discriminate Ht|injection Ht as <-; reflexivity]|]). contradiction. }
  subst t.
  assert (E : exists v, outcome_answer (parse (file_text "./tests/defs/interface-constructor.webidl")) = Val (VCon "Ok" [v])
    /\ forall i, texec cr 98 [("parsed", TV v); ("content", TV (VStr i))]%string
         (match snd (nth 5 integration_tests ("", None)%string) with Some (_ :: _ :: k) => k | _ => [TPanic] end) = Pass).
  { eexists. split; [vm_compute; reflexivity|]. intros i. vm_compute. reflexivity. }
  destruct E as (v & Ev & Hv). rewrite Ev in H2. rewrite <- (Hv (file_text "./tests/defs/interface-constructor.webidl")).
  unfold run_test, integration_tests. cbn [nth snd]. exact (starts_test _ _ _ _ _ _ H1 H2).
Qed.
(** All integration tests pass. *)
Theorem integration_tests_pass : length integration_tests = 6
  /\ exists N, forall n, N <= n -> forall t, In t integration_tests -> run_test (with_files (call n)) t = Pass.
Proof.
  split; [reflexivity|].
  assert (H : Forall (fun t => exists N, forall n, N <= n -> run_test (with_files (call n)) t = Pass) integration_tests).
  { assert (G : forall m p k, In (p, k) numbers -> exists N, forall n, N <= n -> run_test (with_files (call n)) (m, Some (number_test p k)) = Pass).
    { intros m p k H. destruct (files_source p k H) as (N & l & El & HN). exists N. intros n Hn. destruct (HN n Hn) as (H1 & H2 & _).
      exact (number_test_passes _ _ _ _ _ H1 H2 El). }
    assert (G' : exists N, forall n, N <= n -> run_test (with_files (call n)) (nth 5 integration_tests ("", None)%string) = Pass).
    { destruct (files_source "./tests/defs/interface-constructor.webidl" 1) as (N & l & El & HN); [cbn [numbers In]; tauto|].
      exists N. intros n Hn. destruct (HN n Hn) as (H1 & H2 & H3).
      apply (interface_test_passes _ (snd (nth 5 integration_tests ("", None)%string))); [|exact H1|rewrite H2, H3; reflexivity].
      unfold integration_tests. cbn [nth snd In]. tauto. }
    unfold integration_tests.
    repeat (apply Forall_cons; [first [apply G; cbn [numbers In]; tauto|exact G']|]). apply Forall_nil. }
  clear -H. induction H as [|t l (N & HN) _ (M & HM)].
  - exists 0. intros n _ t [].
  - exists (max N M). intros n Hn t' [<-|Ht]; [apply HN; lia|apply HM; [lia|exact Ht]].
Qed.
