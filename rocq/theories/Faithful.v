(** * The model is what the source says: the macros of nom *)
From Coq Require Import String Ascii NArith Arith Bool List Lia.
From Verif Require Import Nom Lex Ast Grammar RunFacts Source Crate Interp Embed.
Import ListNotations.
Open Scope string_scope.
Open Scope list_scope.

(** The answer [a] of the running source is the result [r] of the model ([Diverge]: the model ran out of fuel, nothing is said). *)
Definition Ref {A} (enc : A -> value) (r : res text A) (a : ans) : Prop :=
  match r with
  | Ok j v => a = Val (vok j (enc v))
  | Err e => a = Val (verr e)
  | Diverge => True
  end.
(** The same for results before they are turned into Rust values. *)
Definition RefU {A B} (enc : A -> B) (r : res text A) (u : res text B) : Prop :=
  match r with
  | Ok j v => u = Ok j (enc v)
  | Err e => u = Err e
  | Diverge => True
  end.
Lemma ref_u A (enc : A -> value) r a : Ref enc r a -> RefU enc r (unlift a).
Proof. destruct r; cbn; auto; intros ->; reflexivity. Qed.
Lemma u_ref A (enc : A -> value) r u : RefU enc r u -> Ref enc r (lift u).
Proof. destruct r; cbn; auto; intros ->; reflexivity. Qed.
Lemma ref_ret A (enc : A -> value) (P : parser text A) j a : Ref enc (bind P ret j) a -> Ref enc (P j) a.
Proof. unfold bind, ret. destruct (P j); auto. Qed.
Lemma ref_enc A (f g : A -> value) r a : (forall v, f v = g v) -> Ref f r a -> Ref g r a.
Proof. intros E. destruct r; cbn; auto. rewrite E. auto. Qed.

Lemma u_bind A B A' B' (ea : A -> A') (eb : B -> B') (P : parser text A) (F : A -> parser text B) P' F' j :
  RefU ea (P j) (P' j) -> (forall v r, RefU eb (F v r) (F' (ea v) r)) -> RefU eb (bind P F j) (bind P' F' j).
Proof. intros H HF. unfold bind. destruct (P j); cbn in H; try rewrite H; auto. reflexivity. Qed.
Lemma u_alt A A' (enc : A -> A') P Q (P' Q' : parser text A') j :
  RefU enc (P j) (P' j) -> RefU enc (Q j) (Q' j) -> RefU enc (alt_or P Q j) (alt_or P' Q' j).
Proof. intros H K. unfold alt_or. destruct (P j) as [r v|[]|]; cbn in H; try rewrite H; try reflexivity; auto. Qed.
Lemma u_opt A (enc : A -> value) P P' j : RefU enc (P j) (P' j) -> RefU (enc_Option enc) (opt P j) (vopt (opt P' j)).
Proof. intros H. unfold opt. destruct (P j) as [r v|[]|]; cbn in H; try rewrite H; try reflexivity; try exact Logic.I. Qed.
Lemma u_many0 A (enc : A -> value) P P' n n' j : (forall j, RefU enc (P j) (P' j)) -> n <= n' ->
  RefU (enc_Vec enc) (many0 text_eqb n P j) (vec (many0 text_eqb n' P' j)).
Proof.
  intros H Hn. unfold many0. change (@nil value) with (map enc []). generalize (@nil A) as acc. revert n' Hn j.
  induction n as [|n IH]; intros n' Hn j acc; [exact Logic.I|]. destruct n' as [|n']; [lia|]. cbn [many0_loop].
  specialize (H j). destruct (P j) as [r v|[]|] eqn:E; cbn in H; try rewrite H; try reflexivity; try exact Logic.I.
  destruct (text_eqb r j); [reflexivity|]. replace (map enc acc ++ [enc v]) with (map enc (acc ++ [v])) by (rewrite map_app; reflexivity).
  apply IH. lia.
Qed.
Lemma u_sep_loop A S (es : S -> value) (enc : A -> value) P Q P' Q' n n' j acc : (forall j, RefU es (P j) (P' j)) -> (forall j, RefU enc (Q j) (Q' j)) ->
  n <= n' -> RefU (enc_Vec enc) (sep_loop text_eqb n P Q j acc) (vec (sep_loop text_eqb n' P' Q' j (map enc acc))).
Proof.
  intros H K. revert n' j acc. induction n as [|n IH]; intros n' j acc Hn; [exact Logic.I|]. destruct n' as [|n']; [lia|]. cbn [sep_loop].
  pose proof (H j) as Hj. destruct (P j) as [r v|[]|]; cbn in Hj; try rewrite Hj; try reflexivity; try exact Logic.I.
  destruct (text_eqb r j); [reflexivity|].
  pose proof (K r) as Kr. destruct (Q r) as [s w|[]|]; cbn in Kr; try rewrite Kr; try reflexivity; try exact Logic.I.
  destruct (text_eqb s j); [reflexivity|]. replace (map enc acc ++ [enc w]) with (map enc (acc ++ [w])) by (rewrite map_app; reflexivity).
  apply IH. lia.
Qed.
Lemma u_sep A S (es : S -> value) (enc : A -> value) P Q P' Q' n n' j : (forall j, RefU es (P j) (P' j)) -> (forall j, RefU enc (Q j) (Q' j)) ->
  n <= n' -> RefU (enc_Vec enc) (separated_list text_eqb n P Q j) (vec (separated_list text_eqb n' P' Q' j)).
Proof.
  intros H K Hn. unfold separated_list. pose proof (K j) as Kr. destruct (Q j) as [s w|[]|]; cbn in Kr; try rewrite Kr; try reflexivity; try exact Logic.I.
  destruct (text_eqb s j); [reflexivity|]. apply (u_sep_loop _ _ es enc _ _ _ _ _ _ _ [w] H K Hn).
Qed.
Lemma u_sep1 A S (es : S -> value) (enc : A -> value) P Q P' Q' n n' j : (forall j, RefU es (P j) (P' j)) -> (forall j, RefU enc (Q j) (Q' j)) ->
  n <= n' -> RefU (enc_Vec enc) (separated_nonempty_list text_eqb n P Q j) (vec (separated_nonempty_list text_eqb n' P' Q' j)).
Proof.
  intros H K Hn. unfold separated_nonempty_list. pose proof (K j) as Kr. destruct (Q j) as [s w|e|]; cbn in Kr; try rewrite Kr; try reflexivity; try exact Logic.I.
  destruct (text_eqb s j); [reflexivity|]. apply (u_sep_loop _ _ es enc _ _ _ _ _ _ _ [w] H K Hn).
Qed.
Lemma u_recognize A (enc : A -> value) P P' j : RefU enc (P j) (P' j) -> RefU VStr (recognize P j) (vtext (recognize P' j)).
Proof. intros H. unfold recognize. destruct (P j); cbn in H; try rewrite H; try reflexivity; try exact Logic.I. Qed.
Lemma span_ext f g j : (forall c, f c = g c) -> span f j = span g j.
Proof. intros H. induction j; cbn; [reflexivity|]. rewrite H, IHj. reflexivity. Qed.

Section Expr.
Context (fuel : nat) (cl : callee -> list value -> ans) (te : tenv) (self : string).
Notation ev := (eval fuel cl te self).
Lemma ref_parse A (enc : A -> value) r e t a v : ev e a = Val v -> Ref enc r (cl (CParse (subst te t)) [v]) -> Ref enc r (ev e (EParse t a)).
Proof. intros Ha H. cbn [eval]. rewrite Ha. exact H. Qed.
Lemma ref_sp r e a j : ev e a = Val (VStr j) -> Ref VStr r (cl (CFn "sp") [VStr j]) -> Ref VStr r (ev e (ECall "sp" (Cons a Nil))).
Proof. intros Ha H. rewrite eval_ECall, evals_Cons, Ha, evals_Nil. exact H. Qed.
(** A field of a struct: [match p { Err(e) => Err(e), Ok((i, f)) => k }]. *)
Lemma ref_field A B (ea : A -> value) (enc : B -> value) e a f k (P : parser text A) (F : A -> parser text B) j :
  Ref ea (P j) (ev e a) -> (forall r v, Ref enc (F v r) (ev (("i", Some (VStr r)) :: (f, Some (ea v)) :: e) k)) ->
  Ref enc (bind P F j) (ev e (EMatch a (Arm (PCon "Err" [PVar "e"]) (ECon "Err" (Cons (EVar "e") Nil)) (Arm (PCon "Ok" [PTuple [PVar "i"; PVar f]]) k NoArm)))).
Proof.
  intros H K. rewrite eval_EMatch. unfold bind. destruct (P j) as [r v|er|]; cbn in H; try rewrite H; try exact Logic.I.
  - apply K.
  - reflexivity.
Qed.
Lemma ref_ok A (enc : A -> value) e x v j : lookup "i" e = Some (Some (VStr j)) -> ev e x = Val (enc v) ->
  Ref enc (ret v j) (ev e (ECon "Ok" (Cons (ETuple (Cons (EVar "i") (Cons x Nil))) Nil))).
Proof. intros Hi H. rewrite eval_ECon, evals_Cons, eval_ETuple, !evals_Cons, eval_EVar, Hi, H. reflexivity. Qed.
Lemma ref_default A (enc : A -> value) r e f x : Ref enc r (ev ((f, None) :: e) x) -> Ref enc r (ev e (EBlock (SLet (PVar f) EDefault SEnd) x)).
Proof. intros H. exact H. Qed.
(** do_parse! *)
Lemma ref_step A B (ea : A -> value) (enc : B -> value) e i p x k (P : parser text A) (F : A -> parser text B) j :
  ev e i = Val (VStr j) -> Ref ea (P j) (ev (inp j e) p) -> (forall r v, Ref enc (F v r) (ev (inp r ((x, Some (ea v)) :: e)) k)) ->
  Ref enc (bind P F j) (ev e (EStep i p x k)).
Proof.
  intros Hi H K. cbn [eval]. rewrite Hi. apply ref_u in H. unfold bind.
  destruct (P j) as [r v|er|]; cbn in H; try rewrite H; try reflexivity; try exact Logic.I; apply K.
Qed.
Lemma ref_done A (enc : A -> value) e i x v j : ev e i = Val (VStr j) -> ev e x = Val (enc v) -> Ref enc (ret v j) (ev e (EDone i x)).
Proof. intros Hi H. cbn [eval]. rewrite Hi, H. reflexivity. Qed.
Lemma ref_alt A (enc : A -> value) e i p q P Q j : ev e i = Val (VStr j) -> Ref enc (P j) (ev (inp j e) p) -> Ref enc (Q j) (ev (inp j e) q) ->
  Ref enc (alt_or P Q j) (ev e (EAlt i p q)).
Proof. intros Hi H K. cbn [eval]. rewrite Hi. apply u_ref, u_alt; apply ref_u; assumption. Qed.
Lemma ref_altend A (enc : A -> value) e i j : ev e i = Val (VStr j) -> Ref enc (alt_end j) (ev e (EAltEnd i)).
Proof. intros Hi. cbn [eval]. rewrite Hi. reflexivity. Qed.
Lemma ref_opt A (enc : A -> value) e i p P j : ev e i = Val (VStr j) -> Ref enc (P j) (ev (inp j e) p) -> Ref (enc_Option enc) (opt P j) (ev e (EOpt i p)).
Proof. intros Hi H. cbn [eval]. rewrite Hi. apply u_ref, u_opt, ref_u, H. Qed.
Lemma ref_many0 A (enc : A -> value) e i p P j n : ev e i = Val (VStr j) -> (forall j, Ref enc (P j) (ev (inp j e) p)) -> n <= fuel + S (length j) ->
  Ref (enc_Vec enc) (many0 text_eqb n P j) (ev e (EMany0 i p)).
Proof. intros Hi H Hn. cbn [eval]. rewrite Hi. apply u_ref, u_many0; [intro; apply ref_u, H|exact Hn]. Qed.
Lemma ref_sep A S (es : S -> value) (enc : A -> value) e i p q P Q j n : ev e i = Val (VStr j) -> (forall j, Ref es (P j) (ev (inp j e) p)) ->
  (forall j, Ref enc (Q j) (ev (inp j e) q)) -> n <= fuel + Datatypes.S (length j) -> Ref (enc_Vec enc) (separated_list text_eqb n P Q j) (ev e (ESepList i p q)).
Proof. intros Hi H K Hn. cbn [eval]. rewrite Hi. apply u_ref. apply (u_sep _ _ es); [intro; apply ref_u, H|intro; apply ref_u, K|exact Hn]. Qed.
Lemma ref_sep1 A S (es : S -> value) (enc : A -> value) e i p q P Q j n : ev e i = Val (VStr j) -> (forall j, Ref es (P j) (ev (inp j e) p)) ->
  (forall j, Ref enc (Q j) (ev (inp j e) q)) -> n <= fuel + Datatypes.S (length j) -> Ref (enc_Vec enc) (separated_nonempty_list text_eqb n P Q j) (ev e (ESepList1 i p q)).
Proof. intros Hi H K Hn. cbn [eval]. rewrite Hi. apply u_ref. apply (u_sep1 _ _ es); [intro; apply ref_u, H|intro; apply ref_u, K|exact Hn]. Qed.
Lemma ref_terminated A B (ea : A -> value) (eb : B -> value) e i p q P Q j : ev e i = Val (VStr j) -> (forall j, Ref ea (P j) (ev (inp j e) p)) ->
  (forall j, Ref eb (Q j) (ev (inp j e) q)) -> Ref ea (bind P (fun v => bind Q (fun _ => ret v)) j) (ev e (ETerminated i p q)).
Proof.
  intros Hi H K. cbn [eval]. rewrite Hi. apply u_ref. eapply u_bind; [apply ref_u, H|]. intros v r.
  eapply (u_bind _ _ _ _ eb); [apply ref_u, K|]. intros w s. reflexivity.
Qed.
Lemma ref_recognize A (enc : A -> value) e i p P j : ev e i = Val (VStr j) -> Ref enc (P j) (ev (inp j e) p) -> Ref VStr (recognize P j) (ev e (ERecognize i p)).
Proof. intros Hi H. cbn [eval]. rewrite Hi. eapply u_ref, u_recognize, ref_u, H. Qed.
Lemma ref_map A B (ea : A -> value) (enc : B -> value) e i p x b P (f : A -> B) j : ev e i = Val (VStr j) -> Ref ea (P j) (ev (inp j e) p) ->
  (forall v, ev ((x, Some (ea v)) :: e) b = Val (enc (f v))) -> Ref enc (bind P (fun v => ret (f v)) j) (ev e (EMap i p (EClo (PVar x) b))).
Proof.
  intros Hi H K. cbn [eval]. rewrite Hi. apply ref_u in H. unfold bind, ret.
  destruct (P j) as [r v|er|]; cbn in H; try rewrite H; try reflexivity; try exact Logic.I; cbn [bindp app]; rewrite K; reflexivity.
Qed.
Lemma ref_map_ A B (ea : A -> value) (enc : B -> value) e i p b P (f : A -> B) j : ev e i = Val (VStr j) -> Ref ea (P j) (ev (inp j e) p) ->
  (forall v, ev e b = Val (enc (f v))) -> Ref enc (bind P (fun v => ret (f v)) j) (ev e (EMap i p (EClo PWild b))).
Proof.
  intros Hi H K. cbn [eval]. rewrite Hi. apply ref_u in H. unfold bind, ret.
  destruct (P j) as [r v|er|]; cbn in H; try rewrite H; try reflexivity; try exact Logic.I; cbn [bindp app]; rewrite (K v); reflexivity.
Qed.
(** nom::bytes::complete, nom::character::complete *)
Lemma ref_tag e i s t j : ev e i = Val (VStr j) -> t = str s -> Ref VStr (tag t j) (ev e (ENom "tag" (EStr s) i)).
Proof. intros Hi ->. cbn [eval]. rewrite Hi. apply u_ref. unfold tag. destruct strip_prefix; reflexivity. Qed.
Lemma ref_until e i s t j : ev e i = Val (VStr j) -> t = str s -> Ref VStr (take_until t j) (ev e (ENom "take_until" (EStr s) i)).
Proof. intros Hi ->. cbn [eval]. rewrite Hi. apply u_ref. unfold take_until. destruct find_sub as [[a b]|]; reflexivity. Qed.
Lemma ref_one_of e i s t j : ev e i = Val (VStr j) -> t = str s -> Ref VChr (one_of t j) (ev e (ENom "one_of" (EStr s) i)).
Proof. intros Hi ->. cbn [eval]. rewrite Hi. apply u_ref. unfold one_of. destruct j; [reflexivity|]. destruct existsb; reflexivity. Qed.
Lemma ref_char e i c d j : ev e i = Val (VStr j) -> d = chr c -> Ref VChr (pchar d j) (ev e (ENom "char" (EChar c) i)).
Proof. intros Hi ->. cbn [eval]. rewrite Hi. apply u_ref. unfold pchar. destruct j; [reflexivity|]. destruct N.eqb; reflexivity. Qed.
Lemma ref_while e i x b f j : ev e i = Val (VStr j) -> (forall c, ev ((x, Some (VChr c)) :: e) b = vbool (f c)) ->
  Ref VStr (take_while f j) (ev e (ENom "take_while" (EClo (PVar x) b) i)).
Proof.
  intros Hi H. cbn [eval]. rewrite Hi. cbn. apply u_ref. unfold take_while.
  rewrite (span_ext f (fun c => match ev ((x, Some (VChr c)) :: e) b with Val (VBool q) => q | _ => false end)); [|intro c; rewrite H; reflexivity].
  destruct span. reflexivity.
Qed.
Lemma ref_while1 e i x b f j : ev e i = Val (VStr j) -> (forall c, ev ((x, Some (VChr c)) :: e) b = vbool (f c)) ->
  Ref VStr (take_while1 f j) (ev e (ENom "take_while1" (EClo (PVar x) b) i)).
Proof.
  intros Hi H. cbn [eval]. rewrite Hi. cbn. apply u_ref. unfold take_while1.
  rewrite (span_ext f (fun c => match ev ((x, Some (VChr c)) :: e) b with Val (VBool q) => q | _ => false end)); [|intro c; rewrite H; reflexivity].
  destruct span as [[|d l] k]; reflexivity.
Qed.
End Expr.
