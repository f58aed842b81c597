(** * The declarations are the grammar

    [ast_types!] (src/macros.rs:180-535) makes a parser out of the declaration of a struct or an enum.  Here the items that are read
    from the source (Crate.v) are taken as a grammar: a struct is its fields in turn, an enum is its first variant that can be
    read, and the source, run by Interp.v, does that.  The bodies of the parsers are compared with the declarations as they are after
    expansion of the macros. *)
From Coq Require Import String Ascii NArith Arith Bool List Lia.
From Verif Require Import Source Rust Crate Interp Embed Faithful SourceLex SourceTypes SourceProps Nom Lex Bytes Ast Grammar Api ApiFacts.
Import ListNotations.
Open Scope string_scope.
Open Scope list_scope.

(** ** What the declarations say *)
(** [<t as Parse>::parse(s)] gives [a] when it is run long enough. *)
Definition Gives (t : rty) (s : text) (a : ans) : Prop := exists N, forall n, N <= n -> call n (CParse t) [VStr s] = a.
(** [Ok((rest, v))] and a recoverable error. *)
Definition gives_ok (t : rty) (s rest : text) (v : value) : Prop := Gives t s (Val (VCon "Ok" [VTup [VStr rest; v]])).
Definition gives_err (t : rty) (s p : text) (k : ekind) : Prop := Gives t s (Val (VCon "Err" [VNom (Error p k)])).
(** Types one after the other. *)
Inductive InTurn : list rty -> text -> text -> list value -> Prop :=
| Turn_nil s : InTurn [] s s []
| Turn_cons t ts s m r v vs : gives_ok t s m v -> InTurn ts m r vs -> InTurn (t :: ts) s r (v :: vs).

(** ** Structs *)
(** The parser of a struct: [__ast_struct!] (src/macros.rs:250-398). *)
Fixpoint struct_body (i : string) (all todo : list (string * rty)) : expr :=
  match todo with
  | [] => ECon "Ok" (Cons (ETuple (Cons (EVar i) (Cons (ERecord all) Nil))) Nil)
  | (f, t) :: todo' =>
      EMatch (EParse t (EVar i))
        (Arm (PCon "Err" [PVar "e"]) (ECon "Err" (Cons (EVar "e") Nil))
           (Arm (PCon "Ok" [PTuple [PVar "i"; PVar f]]) (struct_body "i" all todo') NoArm))
  end.
(** What it does. *)
Fixpoint turn (cl : callee -> list value -> ans) (k : list value -> value) (ts : list rty) (s : value) (vs : list value) : ans :=
  match ts with
  | [] => Val (VCon "Ok" [VTup [s; k vs]])
  | t :: ts' =>
      match cl (CParse t) [s] with
      | Val (VCon c l) =>
          if String.eqb "Err" c then match l with [e] => Val (VCon "Err" [e]) | _ => Stuck end
          else if String.eqb "Ok" c then match l with [VTup [m; v]] => turn cl k ts' m (vs ++ [v]) | _ => Stuck end
          else Stuck
      | Val _ => Stuck
      | a => a
      end
  end.
Definition fine (fs : list (string * rty)) : bool :=
  (fix ok (l : list string) : bool := match l with [] => true | x :: l' => negb (existsb (String.eqb x) ("i" :: "input" :: l')) && ok l' end) (map fst fs).
Lemma fine_cons f t fs : fine ((f, t) :: fs) = true -> f <> "i" /\ f <> "input" /\ ~ In f (map fst fs) /\ fine fs = true.
Proof.
  unfold fine. cbn [map fst]. intros H. apply andb_prop in H. destruct H as [H H']. split; [|split; [|split]]; [| | |exact H'];
  apply negb_true_iff in H; cbn [existsb] in H; apply orb_false_elim in H; destruct H as [H1 H]; apply orb_false_elim in H; destruct H as [H2 H].
  - intros ->. discriminate H1.
  - intros ->. discriminate H2.
  - intros Hf. assert (existsb (String.eqb f) (map fst fs) = true); [|congruence]. apply existsb_exists. exists f. split; [exact Hf|apply String.eqb_refl].
Qed.
(** The variables hold the fields. *)
Lemma record_fields te e fs vs : Forall2 (fun f v => lookup (fst f) e = Some (Some v)) fs vs -> record te e fs = Some (combine (map fst fs) vs).
Proof. induction 1 as [|[f t] v fs vs H _ IH]; [reflexivity|]. cbn [record map fst combine] in *. rewrite H, IH. reflexivity. Qed.
Lemma eval_struct fuel cl te self all : forall todo done vs i e s, all = done ++ todo -> fine all = true ->
  lookup i e = Some (Some s) -> Forall2 (fun f v => lookup (fst f) e = Some (Some v)) done vs ->
  eval fuel cl te self e (struct_body i all todo) = turn cl (fun vs => VData self "" (combine (map fst all) vs)) (map (subst te) (map snd todo)) s vs.
Proof.
  induction todo as [|[f t] todo IH]; intros done vs i e s Eall Hf Hi Hd; cbn [struct_body map turn].
  - rewrite app_nil_r in Eall. subst done. rewrite eval_ECon, !evals_Cons, eval_ETuple, !evals_Cons, eval_EVar, Hi.
    change (eval fuel cl te self e (ERecord all)) with (match record te e all with Some fs => Val (VData self "" fs) | None => Stuck end).
    rewrite (record_fields _ _ _ _ Hd). rewrite !evals_Nil. reflexivity.
  - rewrite eval_EMatch. change (eval fuel cl te self e (EParse t (EVar i))) with (match eval fuel cl te self e (EVar i) with Val v => cl (CParse (subst te t)) [v] | r => r end).
    rewrite eval_EVar, Hi. cbn [snd]. destruct (cl (CParse (subst te t)) [s]) as [v| |]; [|reflexivity..].
    rewrite !eval_arms_Arm. destruct v as [| | | | |c l| | | | ]; try reflexivity. cbn [bindp].
    destruct (String.eqb "Err" c) eqn:Hc.
    + assert (Hc' : String.eqb "Ok" c = false) by (apply String.eqb_eq in Hc; subst c; reflexivity). rewrite Hc'. destruct l as [|x [|y l]]; try reflexivity.
    + destruct (String.eqb "Ok" c) eqn:Hc'; [|reflexivity]. destruct l as [|x [|y l]]; try reflexivity.
      * destruct x as [| | |l| | | | | | ]; try reflexivity. destruct l as [|m [|v [|w l]]]; try reflexivity.
        cbn [bindp app]. subst all. pose proof Hf as Hf'.
        apply (IH (done ++ [(f, t)])); [rewrite <- app_assoc; reflexivity|exact Hf|reflexivity|].
        assert (D : f <> "i" /\ forall g, In g (map fst done) -> g <> "i" /\ g <> f).
        { clear -Hf. induction done as [|[g u] done IHd]; cbn [app] in Hf; apply fine_cons in Hf; destruct Hf as (H1 & _ & H2 & H3).
          - split; [exact H1|]. intros g [].
          - destruct (IHd H3) as [K1 K2]. split; [exact K1|]. intros h [<-|Hh]; [|apply K2, Hh]. split; [exact H1|].
            rewrite map_app, in_app_iff in H2. cbn [map fst In] in H2. intros E. cbn [fst] in E. subst g. tauto. }
        destruct D as [D1 D2]. apply Forall2_app.
        -- clear -Hd D2. revert D2. induction Hd as [|[g u] x done vs H _ IHd]; intros D2; [constructor|]. constructor.
           ++ destruct (D2 g (or_introl eq_refl)) as [G1 G2]. cbn [fst lookup]. rewrite (proj2 (String.eqb_neq _ _) G1), (proj2 (String.eqb_neq _ _) G2). exact H.
           ++ apply IHd. intros h Hh. apply D2. right. exact Hh.
        -- constructor; [|constructor]. cbn [fst lookup]. rewrite (proj2 (String.eqb_neq _ _) D1), String.eqb_refl. reflexivity.
      * destruct x as [| | |l'| | | | | | ]; try reflexivity. destruct l' as [|? [|? [|? ?]]]; reflexivity.
Qed.

(** ** Parsers give a result *)
(** Some type [u] that the crate can parse. *)
Definition Known (t : rty) : Prop := forall s, (exists r v, gives_ok t s r v) \/ (exists p k, gives_err t s p k).
Lemma ImplFor_Known t A P enc : ImplFor t A P enc -> Known t.
Proof.
  intros H s. destruct (implements_source _ _ _ _ H s) as [N HN]. destruct (implements_parser _ _ _ _ H) as [b HP].
  pose proof (Parser_terminates _ _ _ HP s) as HT. pose proof (Parser_error _ _ _ HP s) as HE.
  destruct (P s) as [r a|e|] eqn:E; cbn [answer] in HN.
  - left. exists r, (enc a). exists N. exact HN.
  - right. destruct (HE _ eq_refl) as (p & k & _ & -> & _). exists p, k, N. exact HN.
  - contradiction HT. reflexivity.
Qed.
Lemma Gives_det t s a b : Gives t s a -> Gives t s b -> a = b.
Proof. intros [N HN] [M HM]. rewrite <- (HN (N + M)), <- (HM (N + M)) by lia. reflexivity. Qed.
Lemma ok_det t s r v r' v' : gives_ok t s r v -> gives_ok t s r' v' -> r = r' /\ v = v'.
Proof. intros H H'. pose proof (Gives_det _ _ _ _ H H') as E. injection E as -> ->. auto. Qed.
Lemma ok_err t s r v p k : gives_ok t s r v -> gives_err t s p k -> False.
Proof. intros H H'. pose proof (Gives_det _ _ _ _ H H') as E. discriminate E. Qed.
Lemma err_det t s p k p' k' : gives_err t s p k -> gives_err t s p' k' -> p = p' /\ k = k'.
Proof. intros H H'. pose proof (Gives_det _ _ _ _ H H') as E. injection E as -> ->. auto. Qed.
Lemma InTurn_det ts s r vs : InTurn ts s r vs -> forall r' vs', InTurn ts s r' vs' -> r = r' /\ vs = vs'.
Proof.
  induction 1 as [s|t ts s m r v vs H _ IH]; intros r' vs' H'; inversion H'; subst; [auto|].
  destruct (ok_det _ _ _ _ _ _ H ltac:(eassumption)) as [<- <-]. destruct (IH _ _ ltac:(eassumption)) as [<- <-]. auto.
Qed.
(** Reading in turn stops at some type. *)
Inductive StopsAt : list rty -> text -> text -> ekind -> Prop :=
| Stops_here t ts s p k : gives_err t s p k -> StopsAt (t :: ts) s p k
| Stops_later t ts s m v p k : gives_ok t s m v -> StopsAt ts m p k -> StopsAt (t :: ts) s p k.
Lemma stops_not_turn ts s p k : StopsAt ts s p k -> forall r vs, InTurn ts s r vs -> False.
Proof.
  induction 1 as [t ts s p k H|t ts s m v p k H _ IH]; intros r vs H'; inversion H'; subst; [eapply ok_err; eassumption|].
  destruct (ok_det _ _ _ _ _ _ H ltac:(eassumption)) as [<- <-]. eauto.
Qed.
Lemma stops_det ts s p k : StopsAt ts s p k -> forall p' k', StopsAt ts s p' k' -> p = p' /\ k = k'.
Proof.
  induction 1 as [t ts s p k H|t ts s m v p k H _ IH]; intros p' k' H'; inversion H'; subst; try solve [exfalso; eapply ok_err; eassumption].
  - eapply err_det; eassumption.
  - destruct (ok_det _ _ _ _ _ _ H ltac:(eassumption)) as [<- <-]. eauto.
Qed.
Lemma turn_gives mk ts : Forall Known ts -> forall s vs,
  (exists r vs', InTurn ts s r vs' /\ exists N, forall n, N <= n -> turn (call n) mk ts (VStr s) vs = Val (VCon "Ok" [VTup [VStr r; mk (vs ++ vs')]]))
  \/ (exists p k, StopsAt ts s p k /\ exists N, forall n, N <= n -> turn (call n) mk ts (VStr s) vs = Val (VCon "Err" [VNom (Error p k)])).
Proof.
  induction 1 as [|t ts Ht _ IH]; intros s vs.
  - left. exists s, []. split; [constructor|]. exists 0. intros n _. rewrite app_nil_r. reflexivity.
  - destruct (Ht s) as [(m & v & [N HN])|(p & k & [N HN])].
    + destruct (IH m (vs ++ [v])) as [(r & vs' & H & [M HM])|(p & k & H & [M HM])].
      * left. exists r, (v :: vs'). split; [econstructor; [exists N; exact HN|exact H]|]. exists (N + M). intros n Hn.
        cbn [turn]. rewrite HN by lia. cbn [String.eqb Ascii.eqb Bool.eqb]. rewrite HM by lia. rewrite <- app_assoc. reflexivity.
      * right. exists p, k. split; [eapply Stops_later; [exists N; exact HN|exact H]|]. exists (N + M). intros n Hn.
        cbn [turn]. rewrite HN by lia. cbn [String.eqb Ascii.eqb Bool.eqb]. apply HM. lia.
    + right. exists p, k. split; [apply Stops_here; exists N; exact HN|]. exists N. intros n Hn.
      cbn [turn]. rewrite HN by lia. reflexivity.
Qed.
(** A parser that takes types in turn. *)
Lemma in_turn_gives t mk ts : Forall Known ts -> (forall n s, call (S n) (CParse t) [s] = turn (call n) mk ts s []) ->
  (forall s r x, gives_ok t s r x <-> exists vs, InTurn ts s r vs /\ x = mk vs)
  /\ (forall s p k, gives_err t s p k <-> StopsAt ts s p k).
Proof.
  intros K E.
  assert (L : forall s, (exists r vs, InTurn ts s r vs /\ gives_ok t s r (mk vs)) \/ (exists p k, StopsAt ts s p k /\ gives_err t s p k)).
  { intros s. destruct (turn_gives mk ts K s []) as [(r & vs & H & [N HN])|(p & k & H & [N HN])].
    - left. exists r, vs. split; [exact H|]. exists (S N). intros [|n] Hn; [lia|]. rewrite E. apply HN. lia.
    - right. exists p, k. split; [exact H|]. exists (S N). intros [|n] Hn; [lia|]. rewrite E. apply HN. lia. }
  split; intros s ? ?; destruct (L s) as [(r' & vs & H & G)|(p' & k' & H & G)]; split; intros H'.
  - destruct (ok_det _ _ _ _ _ _ H' G) as [-> ->]. eauto.
  - destruct H' as (vs' & H' & ->). destruct (InTurn_det _ _ _ _ H _ _ H') as [<- <-]. exact G.
  - exfalso. eapply ok_err; eassumption.
  - destruct H' as (vs' & H' & ->). exfalso. eapply stops_not_turn; eassumption.
  - exfalso. eapply ok_err; eassumption.
  - exfalso. eapply stops_not_turn; eassumption.
  - destruct (err_det _ _ _ _ _ _ H' G) as [-> ->]. exact H.
  - destruct (stops_det _ _ _ _ H _ _ H') as [<- <-]. exact G.
Qed.

(** ** Structs follow their declarations *)
(** The structs with parsers that are written by hand, or with a parser given in the declaration ([= ...]). *)
Definition by_hand : list string :=
  ["SingleArgument"; "ExtendedAttributeNoArgs"; "Punctuated"; "PunctuatedNonEmpty"; "Identifier"; "DecLit"; "HexLit"; "OctLit"; "StringLit";
   "BooleanLit"; "FloatValueLit"].
(** The terminals (src/term.rs) are not declared with [ast_types!]. *)
Definition is_terminal (x : string) : bool := String.prefix "term::" x.
Definition follows (i : item) : Prop :=
  match i with
  | IStruct _ x vs fs =>
      existsb (String.eqb x) by_hand || is_terminal x = true
      \/ (fine fs = true /\ forall args, length args = length vs ->
           find_parse (Ty x args) = Some (combine vs args, "input", struct_body "input" fs fs)
           /\ (Forall (fun u => exists A p enc, Modelled u A p enc) args -> Forall Known (map (subst (combine vs args)) (map snd fs))))
  | _ => True
  end.
Lemma known_modelled t A p enc : Modelled t A p enc -> Known t.
Proof. intros H. eapply ImplFor_Known, Imp_Modelled, H. Qed.
Ltac modelled :=
  lazymatch goal with
  | H : Modelled ?t _ _ _ |- Modelled ?t _ _ _ => exact H
  | |- Modelled (Ty "Punctuated" [?t; Ty ?s []]) _ _ _ =>
      let o := eval vm_compute in (find_term s) in lazymatch o with Some ?c => refine (M_Punctuated t _ _ _ c _); modelled end
  | |- Modelled (Ty "PunctuatedNonEmpty" [?t; Ty ?s []]) _ _ _ =>
      let o := eval vm_compute in (find_term s) in lazymatch o with Some ?c => refine (M_PunctuatedNonEmpty t _ _ _ c _); modelled end
  | |- Modelled (Ty "Option" _) _ _ _ => refine (M_Option _ _ _ _ _); modelled
  | |- Modelled (Ty "Box" _) _ _ _ => refine (M_Box _ _ _ _ _); modelled
  | |- Modelled (Ty "Vec" _) _ _ _ => refine (M_Vec _ _ _ _ _); modelled
  | |- Modelled (Ty "Parenthesized" _) _ _ _ => refine (M_Parenthesized _ _ _ _ _); modelled
  | |- Modelled (Ty "Bracketed" _) _ _ _ => refine (M_Bracketed _ _ _ _ _); modelled
  | |- Modelled (Ty "Braced" _) _ _ _ => refine (M_Braced _ _ _ _ _); modelled
  | |- Modelled (Ty "Generics" _) _ _ _ => refine (M_Generics _ _ _ _ _); modelled
  | |- Modelled (Ty "MayBeNull" _) _ _ _ => refine (M_MayBeNull _ _ _ _ _); modelled
  | |- Modelled (TyTuple [_; _]) _ _ _ => refine (M_pair _ _ _ _ _ _ _ _ _ _); modelled
  | |- Modelled (TyTuple [_; _; _]) _ _ _ => refine (M_triple _ _ _ _ _ _ _ _ _ _ _ _ _ _ _); modelled
  | |- Modelled (Ty ?s []) _ _ _ =>
      let o := eval vm_compute in (find_term s) in lazymatch o with Some ?c => exact (M_term c) | None => constructor end
  end.
Ltac known :=
  first [eapply known_modelled; modelled
        |eapply ImplFor_Known; first [exact Imp_DecLit|exact Imp_HexLit|exact Imp_OctLit|exact Imp_IntegerLit|exact Imp_BooleanLit|exact Imp_FloatValueLit
                                     |exact Imp_FloatLit|exact Imp_EmptyArrayLit|exact Imp_EmptyDictionaryLit]].
Ltac args_of args H :=
  lazymatch type of H with
  | length args = length [] => destruct args as [|? ?]; [|discriminate H]
  | length args = length [_] => destruct args as [|? [|? ?]]; try discriminate H
  end; clear H.
Definition structs : list item := Eval vm_compute in filter (fun i => match i with IStruct _ _ _ _ => true | _ => false end) crate_items.
Ltac follow :=
  unfold follows; first [left; vm_compute; reflexivity
      |right; split; [reflexivity|]; intros args H; args_of args H; split; [lazymatch goal with |- _ = ?x => vm_cast_no_check (eq_refl x) end|]; intros M; cbn [map snd combine subst lookup String.eqb Ascii.eqb Bool.eqb];
       repeat lazymatch goal with H : Forall _ (_ :: _) |- _ => inversion H as [|? ? (? & ? & ? & ?) ?]; subst; clear H end;
       repeat (apply Forall_cons; [known|]); apply Forall_nil].
(** A list in halves: cheaper than one after the other. *)
Ltac each tac :=
  lazymatch goal with
  | |- Forall _ [] => apply Forall_nil
  | |- Forall _ [_] => apply Forall_cons; [tac|apply Forall_nil]
  | |- Forall ?P ?l =>
      let n := eval vm_compute in (Nat.div2 (length l)) in
      let l1 := eval vm_compute in (firstn n l) in let l2 := eval vm_compute in (skipn n l) in
      change (Forall P (l1 ++ l2)); apply Forall_app; split; each tac
  end.
Lemma structs_follow : Forall follows structs.
Proof.
  unfold structs. each follow.
Qed.
Lemma call_parse n t te x b v : find_parse t = Some (te, x, b) -> call (S n) (CParse t) [v] = eval n (call n) te (ty_name t) [(x, Some v)] b.
Proof. intros E. cbn [call]. rewrite E. reflexivity. Qed.
Theorem struct_in_turn ds x vs fs args : In (IStruct ds x vs fs) crate_items -> existsb (String.eqb x) by_hand = false -> is_terminal x = false ->
  length args = length vs -> Forall (fun u => exists A p enc, Modelled u A p enc) args ->
  let ts := map (fun f => subst (combine vs args) (snd f)) fs in
  (forall s r v, gives_ok (Ty x args) s r v <-> exists xs, InTurn ts s r xs /\ v = VData x "" (combine (map fst fs) xs))
  /\ (forall s p k, gives_err (Ty x args) s p k <-> StopsAt ts s p k).
Proof.
  intros H H1 H2 L M ts.
  assert (Hs : In (IStruct ds x vs fs) structs).
  { assert (E : structs = filter (fun i => match i with IStruct _ _ _ _ => true | _ => false end) crate_items) by (vm_cast_no_check (eq_refl structs)).
    rewrite E. apply filter_In. auto. }
  pose proof (proj1 (Forall_forall _ _) structs_follow _ Hs) as F. cbn [follows] in F. rewrite H1, H2 in F. destruct F as [F|[F1 F]]; [discriminate F|].
  destruct (F args L) as [E K]. specialize (K M). rewrite map_map in K. apply (in_turn_gives (Ty x args) (fun xs => VData x "" (combine (map fst fs) xs))).
  - exact K.
  - intros n s. rewrite (call_parse _ _ _ _ _ _ E). unfold ts. rewrite <- (map_map snd (subst (combine vs args))).
    apply (eval_struct n (call n) (combine vs args) x fs fs [] []); [reflexivity|exact F1|reflexivity|constructor].
Qed.

(** ** Enums follow their declarations *)
(** The parser of an enum: [alt!(weedle!(T) => {From::from} | ...)] (src/macros.rs:491-500). *)
Fixpoint enum_body (i x : string) (vs : list (string * rty)) : expr :=
  match vs with
  | [] => EAltEnd (EVar i)
  | (v, t) :: vs' =>
      EAlt (EVar i) (EMap (EVar "$in") (EParse t (EVar "$in")) (EClo (PVar "x") (ENew x v (Cons (EVar "x") Nil)))) (enum_body "$in" x vs')
  end.
(** The first variant that can be read. *)
Inductive FirstOf (x : string) (s : text) : list (string * rty) -> text -> value -> Prop :=
| First_here v t vs r a : gives_ok t s r a -> FirstOf x s ((v, t) :: vs) r (VData x v [("0", a)])
| First_later v t vs p k r a : gives_err t s p k -> FirstOf x s vs r a -> FirstOf x s ((v, t) :: vs) r a.
(** None can be read. *)
Definition NoneOf (s : text) (vs : list (string * rty)) : Prop := Forall (fun v => exists p k, gives_err (snd v) s p k) vs.
Lemma unlift_lift r : unlift (lift r) = r.
Proof. destruct r; reflexivity. Qed.
Lemma eval_enum fuel x : forall vs, Forall (fun v => Known (snd v)) vs -> forall i e s, lookup i e = Some (Some (VStr s)) ->
  (exists r a, FirstOf x s vs r a /\ exists N, forall n, N <= n -> eval (fuel n) (call n) [] x e (enum_body i x vs) = Val (vok r a))
  \/ (NoneOf s vs /\ exists N, forall n, N <= n -> eval (fuel n) (call n) [] x e (enum_body i x vs) = Val (verr (Error s KAlt))).
Proof.
  induction 1 as [|[v t] vs Ht _ IH]; intros i e s Hi; cbn [enum_body].
  - right. split; [constructor|]. exists 0. intros n _.
    change (match eval (fuel n) (call n) [] x e (EVar i) with Val (VStr j) => lift (alt_end j) | Val _ => Stuck | a => a end = Val (verr (Error s KAlt))).
    rewrite eval_EVar, Hi. reflexivity.
  - set (p := EMap _ _ _). cbn [snd] in Ht.
    assert (E : forall n, eval (fuel n) (call n) [] x e (EAlt (EVar i) p (enum_body "$in" x vs)) =
      lift (alt_or (fun j => unlift (eval (fuel n) (call n) [] x (inp j e) p)) (fun j => unlift (eval (fuel n) (call n) [] x (inp j e) (enum_body "$in" x vs))) s)).
    { intros n. change (eval (fuel n) (call n) [] x e (EAlt (EVar i) p (enum_body "$in" x vs))) with
        (match eval (fuel n) (call n) [] x e (EVar i) with
         | Val (VStr j) => lift (alt_or (fun j => unlift (eval (fuel n) (call n) [] x (inp j e) p)) (fun j => unlift (eval (fuel n) (call n) [] x (inp j e) (enum_body "$in" x vs))) j)
         | Val _ => Stuck | a => a end).
      rewrite eval_EVar, Hi. reflexivity. }
    assert (Ep : forall n, eval (fuel n) (call n) [] x (inp s e) p =
      match unlift (call n (CParse (subst [] t)) [VStr s]) with
      | Ok r w => Val (vok r (VData x v [("0", w)]))
      | Err er => Val (verr er)
      | Diverge => Stuck
      end) by (intros n; reflexivity).
    rewrite sub_nil in Ep.
    destruct (Ht s) as [(r & a & [N HN])|(q & k & [N HN])].
    + left. exists r, (VData x v [("0", a)]). split; [apply First_here; exists N; exact HN|]. exists N. intros n Hn.
      rewrite E. unfold alt_or. rewrite Ep, HN by exact Hn. reflexivity.
    + destruct (IH "$in" (inp s e) s eq_refl) as [(r & a & H & [M HM])|(H & [M HM])].
      * left. exists r, a. split; [eapply First_later; [exists N; exact HN|exact H]|]. exists (N + M). intros n Hn.
        rewrite E. unfold alt_or. rewrite Ep, HN by lia. cbn [unlift String.eqb Ascii.eqb Bool.eqb verr]. rewrite HM by lia. reflexivity.
      * right. split; [constructor; [exists q, k, N; exact HN|exact H]|]. exists (N + M). intros n Hn.
        rewrite E. unfold alt_or. rewrite Ep, HN by lia. cbn [unlift String.eqb Ascii.eqb Bool.eqb verr]. rewrite HM by lia. reflexivity.
Qed.
Lemma first_not_none x s vs r a : FirstOf x s vs r a -> NoneOf s vs -> False.
Proof.
  unfold NoneOf. induction 1 as [v t vs r a H|v t vs p k r a H _ IH]; intros K; inversion K as [|? ? (p' & k' & H') ?]; subst; [eapply ok_err; eassumption|auto].
Qed.
Lemma first_det x s vs r a : FirstOf x s vs r a -> forall r' a', FirstOf x s vs r' a' -> r = r' /\ a = a'.
Proof.
  induction 1 as [v t vs r a H|v t vs p k r a H _ IH]; intros r' a' K; inversion K; subst; try solve [exfalso; eapply ok_err; eassumption]; [|auto].
  destruct (ok_det _ _ _ _ _ _ H ltac:(eassumption)) as [<- <-]. auto.
Qed.
Definition enum_follows (i : item) : Prop :=
  match i with
  | IEnum _ x vs => find_parse (Ty x []) = Some ([], "input", enum_body "input" x vs) /\ Forall (fun v => Known (snd v)) vs
  | _ => True
  end.
Definition enums : list item := Eval vm_compute in filter (fun i => match i with IEnum _ _ _ => true | _ => false end) crate_items.
Lemma enums_follow : Forall enum_follows enums.
Proof.
  unfold enums. repeat (apply Forall_cons; [unfold enum_follows; split; [reflexivity|]; repeat (apply Forall_cons; [cbn [snd]; known|]); apply Forall_nil|]).
  apply Forall_nil.
Qed.
Theorem enum_first ds x vs : In (IEnum ds x vs) crate_items ->
  (forall s r v, gives_ok (Ty x []) s r v <-> FirstOf x s vs r v)
  /\ (forall s p k, gives_err (Ty x []) s p k <-> NoneOf s vs /\ p = s /\ k = KAlt).
Proof.
  intros H.
  assert (Hs : In (IEnum ds x vs) enums).
  { assert (E : enums = filter (fun i => match i with IEnum _ _ _ => true | _ => false end) crate_items) by (vm_cast_no_check (eq_refl enums)).
    rewrite E. apply filter_In. auto. }
  pose proof (proj1 (Forall_forall _ _) enums_follow _ Hs) as [E K].
  assert (L : forall s, (exists r a, FirstOf x s vs r a /\ gives_ok (Ty x []) s r a) \/ (NoneOf s vs /\ gives_err (Ty x []) s s KAlt)).
  { intros s. destruct (eval_enum (fun n => n) x vs K "input" [("input", Some (VStr s))] s eq_refl) as [(r & a & F & [N HN])|(F & [N HN])].
    - left. exists r, a. split; [exact F|]. exists (S N). intros [|n] Hn; [lia|]. rewrite (call_parse _ _ _ _ _ _ E). apply HN. lia.
    - right. split; [exact F|]. exists (S N). intros [|n] Hn; [lia|]. rewrite (call_parse _ _ _ _ _ _ E). apply HN. lia. }
  split; intros s ? ?; destruct (L s) as [(r' & a & F & G)|(F & G)]; split; intros H'.
  - destruct (ok_det _ _ _ _ _ _ H' G) as [-> ->]. exact F.
  - destruct (first_det _ _ _ _ _ F _ _ H') as [<- <-]. exact G.
  - exfalso. eapply ok_err; eassumption.
  - exfalso. eapply first_not_none; eassumption.
  - exfalso. eapply ok_err; eassumption.
  - destruct H' as (H' & _). exfalso. eapply first_not_none; eassumption.
  - destruct (err_det _ _ _ _ _ _ H' G) as [-> ->]. auto.
  - destruct H' as (_ & -> & ->). exact G.
Qed.
