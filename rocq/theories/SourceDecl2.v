(** * The declarations are the grammar: the generic types

    [Option], [Box], tuples, [Vec], [Punctuated] and [PunctuatedNonEmpty] (src/common.rs), for all types that give results. *)
From Coq Require Import String Ascii NArith Arith Bool List Lia.
From Verif Require Import Source Rust Crate Interp Embed Faithful SourceLex SourceTypes SourceProps SourceDecl Nom Lex Bytes Ast Grammar Api ApiFacts.
Import ListNotations.
Open Scope string_scope.
Open Scope list_scope.

(** What a parser inside of a macro of nom does with a text. *)
Definition sub (n : nat) (t : rty) (j : text) : res text value := unlift (call n (CParse t) [VStr j]).
Lemma sub_ok t s r v : gives_ok t s r v -> exists N, forall n, N <= n -> sub n t s = Ok r v.
Proof. intros [N HN]. exists N. intros n Hn. unfold sub. rewrite HN by exact Hn. reflexivity. Qed.
Lemma sub_err t s p k : gives_err t s p k -> exists N, forall n, N <= n -> sub n t s = Err (Error p k).
Proof. intros [N HN]. exists N. intros n Hn. unfold sub. rewrite HN by exact Hn. reflexivity. Qed.
Ltac clash := exfalso; match goal with A : gives_ok ?t ?s _ _, B : gives_err ?t ?s _ _ |- _ => exact (ok_err _ _ _ _ _ _ A B) end.
(** From a case distinction to both equivalences. *)
Lemma gives_step t s a (G : nat -> ans) : (forall n, call (S n) (CParse t) [VStr s] = G n) -> (exists N, forall n, N <= n -> G n = a) -> Gives t s a.
Proof. intros E [N HN]. exists (S N). intros [|n] Hn; [lia|]. rewrite E. apply HN. lia. Qed.

(** ** [Option<T>] (src/common.rs:5-7) *)
Theorem option_gives t : Known t ->
  (forall s r x, gives_ok (Ty "Option" [t]) s r x <->
     (exists v, gives_ok t s r v /\ x = VCon "Some" [v]) \/ ((exists p k, gives_err t s p k) /\ r = s /\ x = VCon "None" []))
  /\ (forall s p k, ~ gives_err (Ty "Option" [t]) s p k).
Proof.
  intros K. assert (E : forall n s, call (S n) (CParse (Ty "Option" [t])) [VStr s] = lift (vopt (opt (sub n t) s))) by (intros; reflexivity).
  assert (L : forall s, (exists r v, gives_ok t s r v /\ gives_ok (Ty "Option" [t]) s r (VCon "Some" [v]))
                     \/ (exists p k, gives_err t s p k /\ gives_ok (Ty "Option" [t]) s s (VCon "None" []))).
  { intros s. destruct (K s) as [(r & v & H)|(p & k & H)].
    - left. exists r, v. split; [exact H|]. destruct (sub_ok _ _ _ _ H) as [N HN]. eapply gives_step; [intros; apply E|]. exists N. intros n Hn.
      unfold opt. rewrite HN by exact Hn. reflexivity.
    - right. exists p, k. split; [exact H|]. destruct (sub_err _ _ _ _ H) as [N HN]. eapply gives_step; [intros; apply E|]. exists N. intros n Hn.
      unfold opt. rewrite HN by exact Hn. reflexivity. }
  split.
  - intros s r x. destruct (L s) as [(r' & v & H & G)|(p & k & H & G)]; split.
    + intros H'. destruct (ok_det _ _ _ _ _ _ H' G) as [-> ->]. left. eauto.
    + intros [(v' & H' & ->)|((p & k & H') & _)]; [|clash]. destruct (ok_det _ _ _ _ _ _ H H') as [-> ->]. exact G.
    + intros H'. destruct (ok_det _ _ _ _ _ _ H' G) as [-> ->]. right. eauto.
    + intros [(v' & H' & ->)|(_ & -> & ->)]; [clash|exact G].
  - intros s p k H'. destruct (L s) as [(r' & v & H & G)|(p' & k' & H & G)]; clash.
Qed.
(** ** [Box<T>] (src/common.rs:9-14) *)
Theorem box_gives t : Known t ->
  (forall s r x, gives_ok (Ty "Box" [t]) s r x <-> exists v, gives_ok t s r v /\ x = VCon "Box::new" [v])
  /\ (forall s p k, gives_err (Ty "Box" [t]) s p k <-> gives_err t s p k).
Proof.
  intros K. assert (E : forall n s, call (S n) (CParse (Ty "Box" [t])) [VStr s] =
    match sub n t s with Ok r v => Val (vok r (VCon "Box::new" [v])) | Err e => Val (verr e) | Diverge => Stuck end) by (intros; reflexivity).
  assert (L : forall s, (exists r v, gives_ok t s r v /\ gives_ok (Ty "Box" [t]) s r (VCon "Box::new" [v]))
                     \/ (exists p k, gives_err t s p k /\ gives_err (Ty "Box" [t]) s p k)).
  { intros s. destruct (K s) as [(r & v & H)|(p & k & H)].
    - left. exists r, v. split; [exact H|]. destruct (sub_ok _ _ _ _ H) as [N HN]. eapply gives_step; [intros; apply E|]. exists N. intros n Hn.
      rewrite HN by exact Hn. reflexivity.
    - right. exists p, k. split; [exact H|]. destruct (sub_err _ _ _ _ H) as [N HN]. eapply gives_step; [intros; apply E|]. exists N. intros n Hn.
      rewrite HN by exact Hn. reflexivity. }
  split; intros s ? ?; destruct (L s) as [(r' & v' & H & G)|(p' & k' & H & G)]; split.
  - intros H'. destruct (ok_det _ _ _ _ _ _ H' G) as [-> ->]. eauto.
  - intros (w & H' & ->). destruct (ok_det _ _ _ _ _ _ H H') as [-> ->]. exact G.
  - intros H'. clash.
  - intros (w & H' & ->). clash.
  - intros H'. clash.
  - intros H'. clash.
  - intros H'. destruct (err_det _ _ _ _ _ _ H' G) as [-> ->]. exact H.
  - intros H'. destruct (err_det _ _ _ _ _ _ H' H) as [-> ->]. exact G.
Qed.
(** ** Tuples (src/common.rs:20-36) *)
Fixpoint turn2 (cl : callee -> list value -> ans) (ts : list rty) (s : text) (vs : list value) : ans :=
  match ts with
  | [] => Val (vok s (VTup vs))
  | t :: ts' => match unlift (cl (CParse t) [VStr s]) with Ok m v => turn2 cl ts' m (vs ++ [v]) | Err e => Val (verr e) | Diverge => Stuck end
  end.
Lemma turn2_gives t ts : Forall Known ts -> (forall n s, call (S n) (CParse t) [VStr s] = turn2 (call n) ts s []) ->
  (forall s r x, gives_ok t s r x <-> exists vs, InTurn ts s r vs /\ x = VTup vs)
  /\ (forall s p k, gives_err t s p k <-> StopsAt ts s p k).
Proof.
  intros K E.
  assert (T : forall s vs,
    (exists r vs', InTurn ts s r vs' /\ exists N, forall n, N <= n -> turn2 (call n) ts s vs = Val (vok r (VTup (vs ++ vs'))))
    \/ (exists p k, StopsAt ts s p k /\ exists N, forall n, N <= n -> turn2 (call n) ts s vs = Val (verr (Error p k)))).
  { clear E. induction K as [|u ts Ht _ IH]; intros s vs.
    - left. exists s, []. split; [constructor|]. exists 0. intros n _. rewrite app_nil_r. reflexivity.
    - destruct (Ht s) as [(m & v & [N HN])|(p & k & [N HN])].
      + destruct (IH m (vs ++ [v])) as [(r & vs' & H & [M HM])|(p & k & H & [M HM])].
        * left. exists r, (v :: vs'). split; [econstructor; [exists N; exact HN|exact H]|]. exists (N + M). intros n Hn.
          cbn [turn2]. rewrite HN by lia. cbn [unlift String.eqb Ascii.eqb Bool.eqb]. rewrite HM by lia. rewrite <- app_assoc. reflexivity.
        * right. exists p, k. split; [eapply Stops_later; [exists N; exact HN|exact H]|]. exists (N + M). intros n Hn.
          cbn [turn2]. rewrite HN by lia. cbn [unlift String.eqb Ascii.eqb Bool.eqb]. apply HM. lia.
      + right. exists p, k. split; [apply Stops_here; exists N; exact HN|]. exists N. intros n Hn. cbn [turn2]. rewrite HN by lia. reflexivity. }
  assert (L : forall s, (exists r vs, InTurn ts s r vs /\ gives_ok t s r (VTup vs)) \/ (exists p k, StopsAt ts s p k /\ gives_err t s p k)).
  { intros s. destruct (T s []) as [(r & vs & H & HN)|(p & k & H & HN)].
    - left. exists r, vs. split; [exact H|]. eapply gives_step; [intros; apply E|exact HN].
    - right. exists p, k. split; [exact H|]. eapply gives_step; [intros; apply E|exact HN]. }
  split; intros s ? ?; destruct (L s) as [(r' & vs & H & G)|(p' & k' & H & G)]; split; intros H'.
  - destruct (ok_det _ _ _ _ _ _ H' G) as [-> ->]. eauto.
  - destruct H' as (vs' & H' & ->). destruct (InTurn_det _ _ _ _ H _ _ H') as [<- <-]. exact G.
  - clash.
  - destruct H' as (vs' & H' & ->). exfalso. eapply stops_not_turn; eassumption.
  - clash.
  - exfalso. eapply stops_not_turn; eassumption.
  - destruct (err_det _ _ _ _ _ _ H' G) as [-> ->]. exact H.
  - destruct (stops_det _ _ _ _ H _ _ H') as [<- <-]. exact G.
Qed.
Theorem tuple_gives ts : Forall Known ts -> length ts = 2 \/ length ts = 3 ->
  (forall s r x, gives_ok (TyTuple ts) s r x <-> exists vs, InTurn ts s r vs /\ x = VTup vs)
  /\ (forall s p k, gives_err (TyTuple ts) s p k <-> StopsAt ts s p k).
Proof.
  intros K L. apply turn2_gives; [exact K|]. intros n s. destruct L as [L|L].
  - destruct ts as [|a [|b [|? ?]]]; try discriminate L.
    change (match sub n a s with
            | Ok m v => match unlift (match sub n b m with Ok r w => Val (vok r (VTup [v; w])) | Err e => Val (verr e) | Diverge => Stuck end) with
                        | _ => match sub n b m with Ok r w => Val (vok r (VTup [v; w])) | Err e => Val (verr e) | Diverge => Stuck end end
            | Err e => Val (verr e) | Diverge => Stuck end = turn2 (call n) [a; b] s []).
    cbn [turn2]. unfold sub. destruct (unlift (call n (CParse a) [VStr s])) as [m v|e|]; [|reflexivity..].
    destruct (unlift (call n (CParse b) [VStr m])) as [m' v'|e|]; reflexivity.
  - destruct ts as [|a [|b [|c [|? ?]]]]; try discriminate L. cbn [turn2].
    change (call (S n) (CParse (TyTuple [a; b; c])) [VStr s]) with
      (match sub n a s with
       | Ok m v => match sub n b m with
                   | Ok m' v' => match sub n c m' with Ok r w => Val (vok r (VTup [v; v'; w])) | Err e => Val (verr e) | Diverge => Stuck end
                   | Err e => Val (verr e) | Diverge => Stuck end
       | Err e => Val (verr e) | Diverge => Stuck end).
    unfold sub. destruct (unlift (call n (CParse a) [VStr s])) as [m v|e|]; [|reflexivity..].
    destruct (unlift (call n (CParse b) [VStr m])) as [m' v'|e|]; [|reflexivity..]. destruct (unlift (call n (CParse c) [VStr m'])) as [m'' v''|e|]; reflexivity.
Qed.

(** ** [Vec<T>] (src/common.rs:16-18) *)
(** As often as possible. *)
Inductive Many (t : rty) : text -> text -> list value -> Prop :=
| Many_stop s p k : gives_err t s p k -> Many t s s []
| Many_more s m r v vs : gives_ok t s m v -> Many t m r vs -> Many t s r (v :: vs).
Definition Consuming (t : rty) : Prop := forall s r v, gives_ok t s r v -> length r < length s.
Lemma many_gives t : Known t -> Consuming t -> forall l s acc, length s <= l ->
  exists r vs, Many t s r vs /\ exists N, forall n fuel, N <= n -> length s < fuel -> many0_loop text_eqb fuel (sub n t) s acc = Ok r (acc ++ vs).
Proof.
  intros K C. induction l as [|l IH]; intros s acc Hl; destruct (K s) as [(m & v & H)|(p & k & H)].
  - pose proof (C _ _ _ H). lia.
  - exists s, []. split; [econstructor; exact H|]. destruct (sub_err _ _ _ _ H) as [N HN]. exists N. intros n [|fuel] Hn Hf; [lia|].
    cbn [many0_loop]. rewrite HN by exact Hn. rewrite app_nil_r. reflexivity.
  - pose proof (C _ _ _ H) as Hm. destruct (IH m (acc ++ [v]) ltac:(lia)) as (r & vs & M & [N' HN']).
    exists r, (v :: vs). split; [econstructor; eassumption|]. destruct (sub_ok _ _ _ _ H) as [N HN]. exists (N + N'). intros n [|fuel] Hn Hf; [lia|].
    cbn [many0_loop]. rewrite HN by lia. rewrite (not_same _ _ Hm). rewrite HN' by lia. rewrite <- app_assoc. reflexivity.
  - exists s, []. split; [econstructor; exact H|]. destruct (sub_err _ _ _ _ H) as [N HN]. exists N. intros n [|fuel] Hn Hf; [lia|].
    cbn [many0_loop]. rewrite HN by exact Hn. rewrite app_nil_r. reflexivity.
Qed.
Lemma Many_det t s r vs : Many t s r vs -> forall r' vs', Many t s r' vs' -> r = r' /\ vs = vs'.
Proof.
  induction 1 as [s p k H|s m r v vs H _ IH]; intros r' vs' H'; inversion H'; subst; try solve [clash]; [auto|].
  destruct (ok_det _ _ _ _ _ _ H ltac:(eassumption)) as [<- <-]. destruct (IH _ _ ltac:(eassumption)) as [<- <-]. auto.
Qed.
Theorem vec_gives t : Known t -> Consuming t ->
  (forall s r x, gives_ok (Ty "Vec" [t]) s r x <-> exists vs, Many t s r vs /\ x = VVec vs)
  /\ (forall s p k, ~ gives_err (Ty "Vec" [t]) s p k).
Proof.
  intros K C.
  assert (E : forall n s, call (S n) (CParse (Ty "Vec" [t])) [VStr s] = lift (vec (many0 text_eqb (n + S (length s)) (sub n t) s))) by (intros; reflexivity).
  assert (L : forall s, exists r vs, Many t s r vs /\ gives_ok (Ty "Vec" [t]) s r (VVec vs)).
  { intros s. destruct (many_gives t K C (length s) s [] (le_n _)) as (r & vs & M & [N HN]). exists r, vs. split; [exact M|].
    eapply gives_step; [intros; apply E|]. exists N. intros n Hn. unfold many0. rewrite HN by lia. reflexivity. }
  split.
  - intros s r x. destruct (L s) as (r' & vs & M & G). split.
    + intros H. destruct (ok_det _ _ _ _ _ _ H G) as [-> ->]. eauto.
    + intros (vs' & M' & ->). destruct (Many_det _ _ _ _ M _ _ M') as [<- <-]. exact G.
  - intros s p k H. destruct (L s) as (r' & vs & M & G). clash.
Qed.

(** ** [Punctuated<T, S>] and [PunctuatedNonEmpty<T, S>] (src/common.rs:120-160) *)
(** What follows an item: a separator counts when an item follows it. *)
Inductive More (t u : rty) : text -> text -> list value -> Prop :=
| More_stop s p k : gives_err u s p k -> More t u s s []
| More_drop s m w p k : gives_ok u s m w -> gives_err t m p k -> More t u s s []
| More_more s m w m' v r vs : gives_ok u s m w -> gives_ok t m m' v -> More t u m' r vs -> More t u s r (v :: vs).
Lemma More_det t u s r vs : More t u s r vs -> forall r' vs', More t u s r' vs' -> r = r' /\ vs = vs'.
Proof.
  induction 1 as [s p k H|s m w p k H H1|s m w m' v r vs H H1 _ IH]; intros r' vs' H'; inversion H'; subst;
  try solve [auto|clash];
  match goal with A : gives_ok u ?x ?a ?b, B : gives_ok u ?x ?c ?d |- _ => destruct (ok_det _ _ _ _ _ _ A B) as [E1 E2]; subst end;
  try solve [auto|clash].
  destruct (ok_det _ _ _ _ _ _ H1 ltac:(eassumption)) as [<- <-]. destruct (IH _ _ ltac:(eassumption)) as [<- <-]. auto.
Qed.
Lemma more_gives t u : Known t -> Consuming t -> Known u -> Consuming u -> forall l s acc, length s <= l ->
  exists r vs, More t u s r vs /\ exists N, forall n fuel, N <= n -> length s < fuel -> sep_loop text_eqb fuel (sub n u) (sub n t) s acc = Ok r (acc ++ vs).
Proof.
  intros K C K' C'. induction l as [|l IH]; intros s acc Hl; destruct (K' s) as [(m & w & H)|(p & k & H)].
  - pose proof (C' _ _ _ H). lia.
  - exists s, []. split; [econstructor; exact H|]. destruct (sub_err _ _ _ _ H) as [N HN]. exists N. intros n [|fuel] Hn Hf; [lia|].
    cbn [sep_loop]. rewrite HN by exact Hn. rewrite app_nil_r. reflexivity.
  - pose proof (C' _ _ _ H) as Hm. destruct (sub_ok _ _ _ _ H) as [N HN]. destruct (K m) as [(m' & v & H1)|(p & k & H1)].
    + pose proof (C _ _ _ H1) as Hm'. destruct (sub_ok _ _ _ _ H1) as [N1 HN1]. destruct (IH m' (acc ++ [v]) ltac:(lia)) as (r & vs & M & [N' HN']).
      exists r, (v :: vs). split; [econstructor; eassumption|]. exists (N + N1 + N'). intros n [|fuel] Hn Hf; [lia|].
      cbn [sep_loop]. rewrite HN by lia. rewrite (not_same s m) by lia. rewrite HN1 by lia. rewrite (not_same s m') by lia. rewrite HN' by lia.
      rewrite <- app_assoc. reflexivity.
    + destruct (sub_err _ _ _ _ H1) as [N1 HN1]. exists s, []. split; [eapply More_drop; eassumption|]. exists (N + N1). intros n [|fuel] Hn Hf; [lia|].
      cbn [sep_loop]. rewrite HN by lia. rewrite (not_same s m) by lia. rewrite HN1 by lia. rewrite app_nil_r. reflexivity.
  - exists s, []. split; [econstructor; exact H|]. destruct (sub_err _ _ _ _ H) as [N HN]. exists N. intros n [|fuel] Hn Hf; [lia|].
    cbn [sep_loop]. rewrite HN by exact Hn. rewrite app_nil_r. reflexivity.
Qed.
Definition list_of (x : string) (vs : list value) (u : value) : value := VData x "" [("list", VVec vs); ("separator", u)].
Theorem punctuated_gives t u d : Known t -> Consuming t -> Known u -> Consuming u -> default u = Some d ->
  (forall s r x, gives_ok (Ty "Punctuated" [t; u]) s r x <->
     ((exists p k, gives_err t s p k) /\ r = s /\ x = list_of "Punctuated" [] d)
     \/ (exists m v vs, gives_ok t s m v /\ More t u m r vs /\ x = list_of "Punctuated" (v :: vs) d))
  /\ (forall s p k, ~ gives_err (Ty "Punctuated" [t; u]) s p k).
Proof.
  intros K C K' C' D.
  assert (E : forall n s, call (S n) (CParse (Ty "Punctuated" [t; u])) [VStr s] =
    match lift (vec (separated_list text_eqb (n + S (length s)) (sub n u) (sub n t) s)) with
    | Val v => match v with
               | VCon "Ok" [VTup [VStr r; VVec l]] => match default u with Some d => Val (vok r (list_of "Punctuated" l d)) | None => Stuck end
               | _ => Val v
               end
    | a => a
    end).
  { intros n s. change (call (S n) (CParse (Ty "Punctuated" [t; u])) [VStr s]) with
      (match lift (vec (separated_list text_eqb (n + S (length s)) (sub n u) (sub n t) s)) with
       | Val v => eval_arms n (call n) [("T", t); ("S", u)] "Punctuated" [("input", Some (VStr s))] v
         (Arm (PCon "Err" [PVar "e"]) (ECon "Err" (Cons (EVar "e") Nil))
           (Arm (PCon "Ok" [PTuple [PVar "i"; PVar "list"]])
             (EBlock (SLet (PVar "separator") EDefault SEnd)
               (ECon "Ok" (Cons (ETuple (Cons (EVar "i") (Cons (ERecord [("list", Ty "Vec" [Ty "T" []]); ("separator", Ty "S" [])]) Nil))) Nil))) NoArm))
       | a => a
       end).
    destruct (separated_list text_eqb (n + S (length s)) (sub n u) (sub n t) s) as [r l|e|]; [|reflexivity..].
    cbn -[default]. destruct (default u); reflexivity. }
  assert (L : forall s, (exists p k, gives_err t s p k /\ gives_ok (Ty "Punctuated" [t; u]) s s (list_of "Punctuated" [] d))
    \/ (exists m v r vs, gives_ok t s m v /\ More t u m r vs /\ gives_ok (Ty "Punctuated" [t; u]) s r (list_of "Punctuated" (v :: vs) d))).
  { intros s. destruct (K s) as [(m & v & H)|(p & k & H)].
    - right. pose proof (C _ _ _ H) as Hm. destruct (sub_ok _ _ _ _ H) as [N HN]. destruct (more_gives t u K C K' C' (length m) m [v] (le_n _)) as (r & vs & M & [N' HN']).
      exists m, v, r, vs. split; [exact H|]. split; [exact M|]. eapply gives_step; [intros; apply E|]. exists (N + N'). intros n Hn. unfold separated_list.
      rewrite HN by lia. rewrite (not_same s m) by lia. rewrite HN' by lia. cbn -[default]. rewrite D. reflexivity.
    - left. exists p, k. split; [exact H|]. destruct (sub_err _ _ _ _ H) as [N HN]. eapply gives_step; [intros; apply E|]. exists N. intros n Hn. unfold separated_list.
      rewrite HN by lia. cbn -[default]. rewrite D. reflexivity. }
  split.
  - intros s r x. destruct (L s) as [(p & k & H & G)|(m & v & r' & vs & H & M & G)]; split.
    + intros H'. destruct (ok_det _ _ _ _ _ _ H' G) as [-> ->]. left. eauto.
    + intros [(_ & -> & ->)|(m & v & vs & H' & _)]; [exact G|clash].
    + intros H'. destruct (ok_det _ _ _ _ _ _ H' G) as [-> ->]. right. do 3 eexists. eauto.
    + intros [((p & k & H') & _)|(m' & v' & vs' & H' & M' & ->)]; [clash|].
      destruct (ok_det _ _ _ _ _ _ H H') as [<- <-]. destruct (More_det _ _ _ _ _ M _ _ M') as [<- <-]. exact G.
  - intros s p k H'. destruct (L s) as [(p' & k' & H & G)|(m & v & r' & vs & H & M & G)]; clash.
Qed.
Theorem nonempty_gives t u d : Known t -> Consuming t -> Known u -> Consuming u -> default u = Some d ->
  (forall s r x, gives_ok (Ty "PunctuatedNonEmpty" [t; u]) s r x <->
     exists m v m' vs, gives_ok t s m v /\ More t u m m' vs /\ x = list_of "PunctuatedNonEmpty" (v :: vs) d
       /\ ((exists w, gives_ok u m' r w) \/ ((exists p k, gives_err u m' p k) /\ r = m')))
  /\ (forall s p k, gives_err (Ty "PunctuatedNonEmpty" [t; u]) s p k <-> gives_err t s p k).
Proof.
  intros K C K' C' D.
  assert (E : forall n s, call (S n) (CParse (Ty "PunctuatedNonEmpty" [t; u])) [VStr s] =
    match separated_nonempty_list text_eqb (n + S (length s)) (sub n u) (sub n t) s with
    | Ok m l => match sub n u m with
                | Ok r _ => match default u with Some d => Val (vok r (list_of "PunctuatedNonEmpty" l d)) | None => Stuck end
                | Err (Error _ _) => match default u with Some d => Val (vok m (list_of "PunctuatedNonEmpty" l d)) | None => Stuck end
                | Err e => Val (verr e)
                | Diverge => Stuck
                end
    | Err e => Val (verr e)
    | Diverge => Stuck
    end).
  { intros n s. change (call (S n) (CParse (Ty "PunctuatedNonEmpty" [t; u])) [VStr s]) with
      (match lift (bind (fun j => unlift (lift (vec (separated_nonempty_list text_eqb (n + S (length j)) (sub n u) (sub n t) j))))
                        (fun v => bind (fun j => unlift (lift (vopt (opt (sub n u) j)))) (fun _ => ret v)) s) with
       | Val v => eval_arms n (call n) [("T", t); ("S", u)] "PunctuatedNonEmpty" [("input", Some (VStr s))] v
         (Arm (PCon "Err" [PVar "e"]) (ECon "Err" (Cons (EVar "e") Nil))
           (Arm (PCon "Ok" [PTuple [PVar "i"; PVar "list"]])
             (EBlock (SLet (PVar "separator") EDefault SEnd)
               (ECon "Ok" (Cons (ETuple (Cons (EVar "i") (Cons (ERecord [("list", Ty "Vec" [Ty "T" []]); ("separator", Ty "S" [])]) Nil))) Nil))) NoArm))
       | a => a
       end).
    unfold bind. destruct (separated_nonempty_list text_eqb (n + S (length s)) (sub n u) (sub n t) s) as [m l|e|]; [|reflexivity..].
    cbn [vec]. rewrite unlift_lift. cbn iota beta. unfold opt. destruct (sub n u m) as [r w|[p k|p k| ]|].
    - cbn -[default]. destruct (default u); reflexivity.
    - cbn -[default]. destruct (default u); reflexivity.
    - reflexivity.
    - reflexivity.
    - reflexivity. }
  assert (L : forall s, (exists p k, gives_err t s p k /\ gives_err (Ty "PunctuatedNonEmpty" [t; u]) s p k)
    \/ (exists m v m' vs r, gives_ok t s m v /\ More t u m m' vs /\ ((exists w, gives_ok u m' r w) \/ ((exists p k, gives_err u m' p k) /\ r = m'))
         /\ gives_ok (Ty "PunctuatedNonEmpty" [t; u]) s r (list_of "PunctuatedNonEmpty" (v :: vs) d))).
  { intros s. destruct (K s) as [(m & v & H)|(p & k & H)].
    - right. pose proof (C _ _ _ H) as Hm. destruct (sub_ok _ _ _ _ H) as [N HN]. destruct (more_gives t u K C K' C' (length m) m [v] (le_n _)) as (m' & vs & M & [N' HN']).
      destruct (K' m') as [(r & w & Hu)|(p & k & Hu)].
      + exists m, v, m', vs, r. split; [exact H|]. split; [exact M|]. split; [eauto|]. destruct (sub_ok _ _ _ _ Hu) as [N1 HN1].
        eapply gives_step; [intros; apply E|]. exists (N + N' + N1). intros n Hn. unfold separated_nonempty_list.
        rewrite HN by lia. rewrite (not_same s m) by lia. rewrite HN' by lia. rewrite HN1 by lia. rewrite D. reflexivity.
      + exists m, v, m', vs, m'. split; [exact H|]. split; [exact M|]. split; [eauto|]. destruct (sub_err _ _ _ _ Hu) as [N1 HN1].
        eapply gives_step; [intros; apply E|]. exists (N + N' + N1). intros n Hn. unfold separated_nonempty_list.
        rewrite HN by lia. rewrite (not_same s m) by lia. rewrite HN' by lia. rewrite HN1 by lia. rewrite D. reflexivity.
    - left. exists p, k. split; [exact H|]. destruct (sub_err _ _ _ _ H) as [N HN]. eapply gives_step; [intros; apply E|]. exists N. intros n Hn.
      unfold separated_nonempty_list. rewrite HN by lia. reflexivity. }
  split; intros s ? ?; destruct (L s) as [(p' & k' & H & G)|(m & v & m' & vs & r' & H & M & U & G)]; split.
  - intros H'. clash.
  - intros (m & v & m' & vs & H' & _). clash.
  - intros H'. destruct (ok_det _ _ _ _ _ _ H' G) as [-> ->]. exists m, v, m', vs. auto.
  - intros (n & w & n' & ws & H' & M' & -> & U'). destruct (ok_det _ _ _ _ _ _ H H') as [<- <-]. destruct (More_det _ _ _ _ _ M _ _ M') as [<- <-].
    assert (r = r'); [|subst; exact G].
    destruct U as [(x & U)|((p & k & U) & ->)], U' as [(x' & U')|((p' & k' & U') & ->)]; try solve [clash]; [|reflexivity].
    destruct (ok_det _ _ _ _ _ _ U U') as [<- _]. reflexivity.
  - intros H'. destruct (err_det _ _ _ _ _ _ H' G) as [-> ->]. exact H.
  - intros H'. destruct (err_det _ _ _ _ _ _ H' H) as [-> ->]. exact G.
  - intros H'. clash.
  - intros H'. clash.
Qed.

(** What the types that are modelled need for these theorems. *)
Theorem modelled_consuming t A P enc : ImplFor t A P enc -> Parser true A P -> Consuming t.
Proof.
  intros H HP s r v G. destruct (implements_source _ _ _ _ H s) as [N HN].
  pose proof (Gives_det _ _ _ _ G (ex_intro _ N HN)) as E. destruct (P s) as [r' a|e|] eqn:EP; cbn [answer] in E; try discriminate E.
  injection E as -> _. exact (Parser_consumes _ _ HP _ _ _ EP).
Qed.

Lemma modelled_gives_ok t A P enc s r a v : ImplFor t A P enc -> P s = Ok r a -> v = enc a -> gives_ok t s r v.
Proof. intros H E ->. destruct (implements_source _ _ _ _ H s) as [N HN]. rewrite E in HN. exists N. exact HN. Qed.
Lemma modelled_gives_err t A P enc s p k : ImplFor t A P enc -> P s = Err (Error p k) -> gives_err t s p k.
Proof. intros H E. destruct (implements_source _ _ _ _ H s) as [N HN]. rewrite E in HN. exists N. exact HN. Qed.

(** ** The conversions *)
(** [impl From] of the source: from the type, to the type, parameter and body. *)
Definition froms : list (rty * rty * string * expr) := flat_map (fun i => match i with IFrom a b x e => [(a, b, x, e)] | _ => [] end) crate_items.
Definition target (q : rty * rty * string * expr) : rty := let '(_, b, _, _) := q in b.
Lemma froms_are : map (fun i => match i with IEnum _ x _ => filter (fun q => rty_eqb (target q) (Ty x [])) froms | _ => [] end) enums
  = map (fun i => match i with IEnum _ x vs => map (fun v => (snd v, Ty x [], "x", ENew x (fst v) (Cons (EVar "x") Nil))) vs | _ => [] end) enums.
Proof. vm_compute. reflexivity. Qed.
Lemma froms_enums : forallb (fun q => existsb (fun i => match i with IEnum _ x _ => rty_eqb (target q) (Ty x []) | _ => false end) enums) froms = true.
Proof. vm_compute. reflexivity. Qed.
Lemma map_eq_In {A B} (f g : A -> B) l : map f l = map g l -> forall x, In x l -> f x = g x.
Proof. induction l as [|y l IH]; cbn; [tauto|]. intros E x [<-|H]; injection E as E E'; auto. Qed.
Lemma enums_are i : In i enums <-> In i crate_items /\ (exists ds x vs, i = IEnum ds x vs).
Proof.
  assert (E : enums = filter (fun i => match i with IEnum _ _ _ => true | _ => false end) crate_items) by (vm_cast_no_check (eq_refl enums)).
  rewrite E, filter_In. split; intros [H H']; (split; [exact H|]).
  - destruct i; try discriminate H'. eauto.
  - destruct H' as (? & ? & ? & ->). reflexivity.
Qed.
Lemma In_enums ds x vs : In (IEnum ds x vs) crate_items -> In (IEnum ds x vs) enums.
Proof. intros H. apply enums_are. split; [exact H|]. eauto. Qed.
(** The conversions of an enum are its variants. *)
Lemma enum_froms ds x vs : In (IEnum ds x vs) crate_items ->
  filter (fun q => rty_eqb (target q) (Ty x [])) froms = map (fun v => (snd v, Ty x [], "x", ENew x (fst v) (Cons (EVar "x") Nil))) vs.
Proof. intros H. exact (map_eq_In _ _ _ froms_are (IEnum ds x vs) (In_enums _ _ _ H)). Qed.
Lemma In_froms a b x e : In (a, b, x, e) froms <-> In (IFrom a b x e) crate_items.
Proof.
  unfold froms. rewrite in_flat_map. split.
  - intros (i & Hi & H). destruct i; try contradiction H. destruct H as [H|[]]. injection H as -> -> -> ->. exact Hi.
  - intros H. eexists. split; [exact H|]. left. reflexivity.
Qed.
Theorem from_variant a b y e : In (IFrom a b y e) crate_items ->
  exists ds x vs v, In (IEnum ds x vs) crate_items /\ In (v, a) vs /\ b = Ty x []
    /\ forall fuel cl te self w, eval fuel cl te self [(y, Some w)] e = Val (VData x v [("0", w)]).
Proof.
  intros H. apply (proj2 (In_froms _ _ _ _)) in H. pose proof (proj1 (forallb_forall _ _) froms_enums _ H) as F. cbv beta in F. apply existsb_exists in F.
  destruct F as (i & Hi & F). apply enums_are in Hi. destruct Hi as (Hi & ds & x & vs & ->). cbn [target] in F.
  assert (K : In (a, b, y, e) (filter (fun q => rty_eqb (target q) (Ty x [])) froms)) by (apply filter_In; split; [exact H|exact F]).
  rewrite (enum_froms _ _ _ Hi) in K. apply in_map_iff in K. destruct K as ([v t] & K & Hv). injection K as <- <- <- <-.
  exists ds, x, vs, v. split; [exact Hi|]. split; [exact Hv|]. split; reflexivity.
Qed.
Theorem variant_from ds x vs v t : In (IEnum ds x vs) crate_items -> In (v, t) vs ->
  exists y e, In (IFrom t (Ty x []) y e) crate_items
    /\ (forall y' e', In (IFrom t (Ty x []) y' e') crate_items -> y' = y /\ e' = e)
    /\ forall fuel cl te self w, eval fuel cl te self [(y, Some w)] e = Val (VData x v [("0", w)]).
Proof.
  intros Hi Hv. exists "x", (ENew x v (Cons (EVar "x") Nil)).
  assert (K : In (t, Ty x [], "x", ENew x v (Cons (EVar "x") Nil)) (filter (fun q => rty_eqb (target q) (Ty x [])) froms)).
  { rewrite (enum_froms _ _ _ Hi). apply in_map_iff. exists (v, t). auto. }
  apply filter_In in K. destruct K as [K _]. split; [exact (proj1 (In_froms _ _ _ _) K)|]. split; [|reflexivity].
  intros y' e' H. apply (proj2 (In_froms _ _ _ _)) in H.
  assert (K' : In (t, Ty x [], y', e') (filter (fun q => rty_eqb (target q) (Ty x [])) froms)).
  { apply filter_In. split; [exact H|]. cbn. rewrite String.eqb_refl. reflexivity. }
  rewrite (enum_froms _ _ _ Hi) in K'. apply in_map_iff in K'. destruct K' as ([v' t'] & K' & Hv'). cbn [fst snd] in K'. injection K' as -> <- <-.
  split; [reflexivity|]. assert (v' = v); [|subst; reflexivity].
  assert (D : forallb (fun i => match i with IEnum _ _ vs => (fix ok (l : list (string * rty)) : bool :=
    match l with [] => true | x :: l' => forallb (fun y => negb (rty_eqb (snd x) (snd y))) l' && ok l' end) vs | _ => true end) enums = true) by (vm_compute; reflexivity).
  pose proof (proj1 (forallb_forall _ _) D _ (In_enums _ _ _ Hi)) as D'. cbv beta iota in D'. clear -D' Hv Hv'.
  assert (R : forall a, rty_eqb a a = true).
  { fix IH 1. intros [z l|l]; cbn [rty_eqb]; [rewrite String.eqb_refl; cbn [andb]|]; induction l as [|q l IHl]; cbn; [reflexivity|rewrite IH; exact IHl|reflexivity|rewrite IH; exact IHl]. }
  induction vs as [|[w u] vs IHv]; [contradiction|]. apply andb_prop in D'. destruct D' as [D1 D2]. rewrite forallb_forall in D1.
  destruct Hv as [Hv|Hv], Hv' as [Hv'|Hv'].
  - congruence.
  - injection Hv as -> ->. specialize (D1 _ Hv'). cbn [snd] in D1. rewrite R in D1. discriminate D1.
  - injection Hv' as -> ->. specialize (D1 _ Hv). cbn [snd] in D1. rewrite R in D1. discriminate D1.
  - apply IHv; assumption.
Qed.

(** ** The two other declarations *)
(** [ExtendedAttributeNoArgs] (src/attribute.rs:55-57) is a struct without names of fields, [SingleArgument] (src/argument.rs:14-23) has a
    field with a parser of its own. *)
Lemma try_ok n te self e t i x b s r v : lookup i e = Some (Some (VStr s)) -> call n (CParse (subst te t)) [VStr s] = Val (VCon "Ok" [VTup [VStr r; v]]) ->
  eval n (call n) te self e (EMatch (EParse t (EVar i)) (Arm (PCon "Err" [PVar "e"]) (ECon "Err" (Cons (EVar "e") Nil)) (Arm (PCon "Ok" [PTuple [PVar "i"; PVar x]]) b NoArm)))
  = eval n (call n) te self ([("i", Some (VStr r)); (x, Some v)] ++ e) b.
Proof.
  intros Hi E. rewrite eval_EMatch. change (eval n (call n) te self e (EParse t (EVar i))) with (match eval n (call n) te self e (EVar i) with Val v => call n (CParse (subst te t)) [v] | r => r end).
  rewrite eval_EVar, Hi, E. rewrite !eval_arms_Arm. reflexivity.
Qed.
Lemma try_err n te self e t i x b s p k : lookup i e = Some (Some (VStr s)) -> call n (CParse (subst te t)) [VStr s] = Val (VCon "Err" [VNom (Error p k)]) ->
  eval n (call n) te self e (EMatch (EParse t (EVar i)) (Arm (PCon "Err" [PVar "e"]) (ECon "Err" (Cons (EVar "e") Nil)) (Arm (PCon "Ok" [PTuple [PVar "i"; PVar x]]) b NoArm)))
  = Val (VCon "Err" [VNom (Error p k)]).
Proof.
  intros Hi E. rewrite eval_EMatch. change (eval n (call n) te self e (EParse t (EVar i))) with (match eval n (call n) te self e (EVar i) with Val v => call n (CParse (subst te t)) [v] | r => r end).
  rewrite eval_EVar, Hi, E. rewrite !eval_arms_Arm. reflexivity.
Qed.
Theorem noargs_gives :
  (forall s r x, gives_ok (Ty "ExtendedAttributeNoArgs" []) s r x <-> exists v, gives_ok (Ty "Identifier" []) s r v /\ x = VData "ExtendedAttributeNoArgs" "" [("0", v)])
  /\ (forall s p k, gives_err (Ty "ExtendedAttributeNoArgs" []) s p k <-> gives_err (Ty "Identifier" []) s p k).
Proof.
  assert (K : Known (Ty "Identifier" [])) by known.
  assert (F : exists b, find_parse (Ty "ExtendedAttributeNoArgs" []) = Some ([], "input", b)
    /\ b = EMatch (EParse (Ty "Identifier" []) (EVar "input")) (Arm (PCon "Err" [PVar "e"]) (ECon "Err" (Cons (EVar "e") Nil)) (Arm (PCon "Ok" [PTuple [PVar "i"; PVar "inner"]])
             (ECon "Ok" (Cons (ETuple (Cons (EVar "i") (Cons (ENew "ExtendedAttributeNoArgs" "" (Cons (EVar "inner") Nil)) Nil))) Nil)) NoArm)))
    by (eexists; split; [vm_compute; reflexivity|reflexivity]).
  destruct F as (b & F & Hb).
  assert (L : forall s, (exists r v, gives_ok (Ty "Identifier" []) s r v /\ gives_ok (Ty "ExtendedAttributeNoArgs" []) s r (VData "ExtendedAttributeNoArgs" "" [("0", v)]))
                     \/ (exists p k, gives_err (Ty "Identifier" []) s p k /\ gives_err (Ty "ExtendedAttributeNoArgs" []) s p k)).
  { intros s. destruct (K s) as [(r & v & H)|(p & k & H)]; pose proof H as [N HN].
    - left. exists r, v. split; [exact H|]. eapply gives_step; [intros; apply (call_parse _ _ _ _ _ _ F)|]. exists N. intros n Hn. subst b.
      erewrite try_ok; [|reflexivity|exact (HN n Hn)]. reflexivity.
    - right. exists p, k. split; [exact H|]. eapply gives_step; [intros; apply (call_parse _ _ _ _ _ _ F)|]. exists N. intros n Hn. subst b.
      apply (try_err _ _ _ _ _ _ _ _ s); [reflexivity|exact (HN n Hn)]. }
  split; intros s ? ?; destruct (L s) as [(r' & v' & H & G)|(p' & k' & H & G)]; split.
  - intros H'. destruct (ok_det _ _ _ _ _ _ H' G) as [-> ->]. eauto.
  - intros (w & H' & ->). destruct (ok_det _ _ _ _ _ _ H H') as [-> ->]. exact G.
  - intros H'. clash.
  - intros (w & H' & ->). clash.
  - intros H'. clash.
  - intros H'. clash.
  - intros H'. destruct (err_det _ _ _ _ _ _ H' G) as [-> ->]. exact H.
  - intros H'. destruct (err_det _ _ _ _ _ _ H' H) as [-> ->]. exact G.
Qed.
Definition single_types : list rty :=
  [Ty "Option" [Ty "Bracketed" [Ty "Punctuated" [Ty "ExtendedAttribute" []; Ty "term::Comma" []]]]; Ty "Option" [Ty "term::Optional" []]; Ty "AttributedType" []; Ty "Identifier" []].
(** The default value is read after [optional] only. *)
Inductive SingleDefault (o : value) (s : text) : text -> value -> Prop :=
| SD_none : o = VCon "None" [] -> SingleDefault o s s (VCon "None" [])
| SD_some w r d : o = VCon "Some" [w] -> gives_ok (Ty "Option" [Ty "Default" []]) s r d -> SingleDefault o s r d.
Definition single_value (a o t i d : value) : value :=
  VData "SingleArgument" "" [("attributes", a); ("optional", o); ("type_", t); ("identifier", i); ("default", d)].
Theorem single_gives :
  (forall s r x, gives_ok (Ty "SingleArgument" []) s r x <->
     exists m a o t i d, InTurn single_types s m [a; o; t; i] /\ SingleDefault o m r d /\ x = single_value a o t i d)
  /\ (forall s p k, gives_err (Ty "SingleArgument" []) s p k <-> StopsAt single_types s p k).
Proof.
  assert (K1 : Known (Ty "Option" [Ty "Bracketed" [Ty "Punctuated" [Ty "ExtendedAttribute" []; Ty "term::Comma" []]]])) by known.
  assert (K2 : Known (Ty "Option" [Ty "term::Optional" []])) by known. assert (K2' : Known (Ty "term::Optional" [])) by known.
  assert (K3 : Known (Ty "AttributedType" [])) by known. assert (K4 : Known (Ty "Identifier" [])) by known.
  assert (K5 : Known (Ty "Option" [Ty "Default" []])) by known. assert (K5' : Known (Ty "Default" [])) by known.
  set (tr := fun i x t b => EMatch (EParse t (EVar i)) (Arm (PCon "Err" [PVar "e"]) (ECon "Err" (Cons (EVar "e") Nil)) (Arm (PCon "Ok" [PTuple [PVar "i"; PVar x]]) b NoArm))).
  set (fin := EMatch (EMap (EVar "i") (ECond (EVar "$in") (EMethod (EVar "optional") "is_some" Nil) (EParse (Ty "Option" [Ty "Default" []]) (EVar "$in")))
                 (EClo (PVar "default") (EMethod (EVar "default") "unwrap_or" (Cons (ECon "None" Nil) Nil))))
              (Arm (PCon "Err" [PVar "e"]) (ECon "Err" (Cons (EVar "e") Nil)) (Arm (PCon "Ok" [PTuple [PVar "i"; PVar "default"]])
                 (ECon "Ok" (Cons (ETuple (Cons (EVar "i") (Cons (ERecord (combine ["attributes"; "optional"; "type_"; "identifier"; "default"] (single_types ++ [Ty "Option" [Ty "Default" []]])))
                    Nil))) Nil)) NoArm))).
  assert (F : exists b, find_parse (Ty "SingleArgument" []) = Some ([], "input", b)
    /\ b = tr "input" "attributes" (Ty "Option" [Ty "Bracketed" [Ty "Punctuated" [Ty "ExtendedAttribute" []; Ty "term::Comma" []]]])
             (tr "i" "optional" (Ty "Option" [Ty "term::Optional" []]) (tr "i" "type_" (Ty "AttributedType" []) (tr "i" "identifier" (Ty "Identifier" []) fin))))
    by (eexists; split; [vm_compute; reflexivity|reflexivity]).
  destruct F as (b & F & Hb).
  assert (L : forall s, (exists m a o t i d r, InTurn single_types s m [a; o; t; i] /\ SingleDefault o m r d /\ gives_ok (Ty "SingleArgument" []) s r (single_value a o t i d))
                     \/ (exists p k, StopsAt single_types s p k /\ gives_err (Ty "SingleArgument" []) s p k)).
  { intros s.
    destruct (K1 s) as [(m1 & a & H1)|(p & k & H1)]; pose proof H1 as [N1 HN1].
    2: { right. exists p, k. split; [constructor; exact H1|]. eapply gives_step; [intros; apply (call_parse _ _ _ _ _ _ F)|]. exists N1. intros n Hn. subst b.
         unfold tr. apply (try_err _ _ _ _ _ _ _ _ s); [reflexivity|apply HN1; lia]. }
    destruct (K2 m1) as [(m2 & o & H2)|(p & k & H2)]; pose proof H2 as [N2 HN2].
    2: { right. exists p, k. split; [eapply Stops_later; [exact H1|]; constructor; exact H2|]. eapply gives_step; [intros; apply (call_parse _ _ _ _ _ _ F)|].
         exists (N1 + N2). intros n Hn. subst b. unfold tr.
         erewrite try_ok; [|reflexivity|apply HN1; lia]. apply (try_err _ _ _ _ _ _ _ _ m1); [reflexivity|apply HN2; lia]. }
    destruct (K3 m2) as [(m3 & t & H3)|(p & k & H3)]; pose proof H3 as [N3 HN3].
    2: { right. exists p, k. split; [eapply Stops_later; [exact H1|]; eapply Stops_later; [exact H2|]; constructor; exact H3|].
         eapply gives_step; [intros; apply (call_parse _ _ _ _ _ _ F)|]. exists (N1 + N2 + N3). intros n Hn. subst b. unfold tr.
         erewrite try_ok; [|reflexivity|apply HN1; lia]. erewrite try_ok; [|reflexivity|apply HN2; lia]. apply (try_err _ _ _ _ _ _ _ _ m2); [reflexivity|apply HN3; lia]. }
    destruct (K4 m3) as [(m4 & i & H4)|(p & k & H4)]; pose proof H4 as [N4 HN4].
    2: { right. exists p, k. split; [eapply Stops_later; [exact H1|]; eapply Stops_later; [exact H2|]; eapply Stops_later; [exact H3|]; constructor; exact H4|].
         eapply gives_step; [intros; apply (call_parse _ _ _ _ _ _ F)|]. exists (N1 + N2 + N3 + N4). intros n Hn. subst b. unfold tr.
         erewrite try_ok; [|reflexivity|apply HN1; lia]. erewrite try_ok; [|reflexivity|apply HN2; lia]. erewrite try_ok; [|reflexivity|apply HN3; lia].
         apply (try_err _ _ _ _ _ _ _ _ m3); [reflexivity|apply HN4; lia]. }
    assert (T : InTurn single_types s m4 [a; o; t; i]) by (unfold single_types; do 4 (econstructor; [eassumption|]); constructor).
    assert (R : forall r d M, (forall n, M <= n -> eval n (call n) [] "SingleArgument" ([("i", Some (VStr m4)); ("identifier", Some i)] ++ [("i", Some (VStr m3)); ("type_", Some t)] ++
         [("i", Some (VStr m2)); ("optional", Some o)] ++ [("i", Some (VStr m1)); ("attributes", Some a)] ++ [("input", Some (VStr s))]) fin =
           Val (VCon "Ok" [VTup [VStr r; single_value a o t i d]])) -> gives_ok (Ty "SingleArgument" []) s r (single_value a o t i d)).
    { intros r d M HM. eapply gives_step; [intros; apply (call_parse _ _ _ _ _ _ F)|]. exists (N1 + N2 + N3 + N4 + M). intros n Hn. subst b. unfold tr.
      erewrite try_ok; [|reflexivity|apply HN1; lia]. erewrite try_ok; [|reflexivity|apply HN2; lia]. erewrite try_ok; [|reflexivity|apply HN3; lia].
      erewrite try_ok; [|reflexivity|apply HN4; lia]. apply HM. lia. }
    left. apply (proj1 (option_gives _ K2')) in H2. destruct H2 as [(w & _ & ->)|(_ & _ & ->)].
    - destruct (K5 m4) as [(r & d & H5)|(p & k & H5)]; [|exfalso; exact (proj2 (option_gives _ K5') _ _ _ H5)]. exists m4, a, (VCon "Some" [w]), t, i, d, r. split; [exact T|].
      split; [eapply SD_some; [reflexivity|exact H5]|]. destruct H5 as [N5 HN5]. apply (R _ _ N5). intros n Hn. unfold fin. rewrite eval_EMatch.
      cbn -[call str single_types]. rewrite HN5 by exact Hn. reflexivity.
    - exists m4, a, (VCon "None" []), t, i, (VCon "None" []), m4. split; [exact T|]. split; [constructor; reflexivity|]. apply (R _ _ 0). intros n Hn. reflexivity. }
  split; intros s ? ?; destruct (L s) as [(m & a & o & t & i & d & r' & H & D & G)|(p' & k' & H & G)]; split; intros H'.
  - destruct (ok_det _ _ _ _ _ _ H' G) as [-> ->]. do 6 eexists. eauto.
  - destruct H' as (m' & a' & o' & t' & i' & d' & H' & D' & ->). destruct (InTurn_det _ _ _ _ H _ _ H') as [<- E]. injection E as <- <- <- <-.
    assert (E : r' = r /\ d = d'); [|destruct E as [-> ->]; exact G].
    inversion D as [E|w r1 d1 E E1]; inversion D' as [E'|w' r2 d2 E' E2]; subst; try discriminate; auto.
    destruct (ok_det _ _ _ _ _ _ E1 E2) as [-> ->]. auto.
  - clash.
  - destruct H' as (m' & a' & o' & t' & i' & d' & H' & _ & _). exfalso. eapply stops_not_turn; eassumption.
  - clash.
  - exfalso. eapply stops_not_turn; eassumption.
  - destruct (err_det _ _ _ _ _ _ H' G) as [-> ->]. exact H.
  - destruct (stops_det _ _ _ _ H _ _ H') as [<- <-]. exact G.
Qed.
