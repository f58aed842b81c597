(** * The declarations in the source: every value of a type of the crate is the value of a tree of the model *)
From Coq Require Import String Ascii NArith Arith Bool List Lia.
From Verif Require Import Nom Lex Ast Grammar Api LexProps Source Crate Interp Embed SourceLex SourceProps SourceWt.
Import ListNotations.
Open Scope string_scope.
Open Scope list_scope.

(** ** Inversion of [wt] *)
Fixpoint fresh_names (l : list string) : bool :=
  match l with [] => true | x :: l' => negb (existsb (String.eqb x) l') && fresh_names l' end.
Lemma lookup_unique A (l : list (string * A)) : fresh_names (map fst l) = true -> forall n r, In (n, r) l -> lookup n l = Some r.
Proof.
  induction l as [|[m w] l IH]; [contradiction|]. cbn [map fst fresh_names]. intros H n r [[= -> ->]|K].
  - cbn. rewrite String.eqb_refl. reflexivity.
  - apply andb_true_iff in H. destruct H as [H H']. cbn. destruct (String.eqb n m) eqn:E; [|apply IH; assumption].
    apply String.eqb_eq in E. subst m. apply negb_true_iff in H. exfalso.
    assert (X : existsb (String.eqb n) (map fst l) = true).
    { apply existsb_exists. exists n. split; [|apply String.eqb_refl]. apply in_map_iff. exists (n, r). auto. }
    congruence.
Qed.
Lemma struct_lookup ds n vs fields : In (IStruct ds n vs fields) crate_items -> lookup n structs = Some (ds, (vs, fields)).
Proof.
  intros H. apply lookup_unique; [vm_compute; reflexivity|].
  assert (E : structs = flat_map (fun i => match i with IStruct ds n vs fs => [(n, (ds, (vs, fs)))] | _ => [] end) crate_items) by (vm_compute; reflexivity).
  rewrite E. apply in_flat_map. eexists. split; [exact H|left; reflexivity].
Qed.
Lemma enum_lookup ds n vs : In (IEnum ds n vs) crate_items -> lookup n enum_decls = Some (ds, vs).
Proof.
  intros H. apply lookup_unique; [vm_compute; reflexivity|].
  assert (E : enum_decls = flat_map (fun i => match i with IEnum ds n vs => [(n, (ds, vs))] | _ => [] end) crate_items) by (vm_compute; reflexivity).
  rewrite E. apply in_flat_map. eexists. split; [exact H|left; reflexivity].
Qed.
Definition library (n : string) : bool := existsb (String.eqb n) ["str"; "bool"; "Option"; "Box"; "Vec"].
Definition none {A} (o : option A) : bool := match o with None => true | Some _ => false end.
Lemma inv_struct v n args ds vs fields : wt v (Ty n args) -> lookup n structs = Some (ds, (vs, fields)) -> none (lookup n enum_decls) && negb (library n) = true ->
  exists fs, v = VData n "" fs /\ Forall2 (fun f d => fst f = fst d /\ wt (snd f) (subst (combine vs args) (snd d))) fs fields.
Proof.
  intros W L N. inversion W; subst; try discriminate N.
  - match goal with H : In _ _ |- _ => apply struct_lookup in H; rewrite L in H; injection H as <- <- <- end. eauto.
  - match goal with H : In (IEnum _ _ _) _ |- _ => apply enum_lookup in H; rewrite H in N; discriminate N end.
Qed.
Lemma inv_enum v n ds variants : wt v (Ty n []) -> lookup n enum_decls = Some (ds, variants) -> none (lookup n structs) && negb (library n) = true ->
  exists c t x, v = VData n c [("0", x)] /\ In (c, t) variants /\ wt x t.
Proof.
  intros W L N. inversion W; subst; try discriminate N.
  - match goal with H : In _ _ |- _ => apply struct_lookup in H; rewrite H in N; discriminate N end.
  - match goal with H : In (IEnum _ _ _) _ |- _ => apply enum_lookup in H; rewrite L in H; injection H as <- <- end. eauto 6.
Qed.
Lemma field_inv s fs d fields : Forall2 (fun f (d : string * rty) => fst f = fst d /\ wt (snd f) (subst s (snd d))) fs (d :: fields) ->
  exists v l, fs = (fst d, v) :: l /\ wt v (subst s (snd d)) /\ Forall2 (fun f d => fst f = fst d /\ wt (snd f) (subst s (snd d))) l fields.
Proof. intros H. inversion H as [|[a v] ? ? ? [E W]]; subst. cbn in E, W. subst a. eauto. Qed.
Lemma nil_inv A B (P : A -> B -> Prop) l : Forall2 P l [] -> l = [].
Proof. intros H. inversion H. reflexivity. Qed.
Lemma cons_inv A B (P : A -> B -> Prop) l y m : Forall2 P l (y :: m) -> exists x l', l = x :: l' /\ P x y /\ Forall2 P l' m.
Proof. intros H. inversion H; subst. eauto. Qed.
Lemma str_inv v : wt v (Ty "str" []) -> exists s, v = VStr s.
Proof.
  intros W. inversion W; subst; [eauto|exfalso..].
  - match goal with H : In _ _ |- _ => apply struct_lookup in H; vm_compute in H; discriminate H end.
  - match goal with H : In _ crate_items |- _ => apply enum_lookup in H; vm_compute in H; discriminate H end.
Qed.
Lemma bool_inv v : wt v (Ty "bool" []) -> exists b, v = VBool b.
Proof.
  intros W. inversion W; subst; [eauto|exfalso..].
  - match goal with H : In _ _ |- _ => apply struct_lookup in H; vm_compute in H; discriminate H end.
  - match goal with H : In _ crate_items |- _ => apply enum_lookup in H; vm_compute in H; discriminate H end.
Qed.
Lemma tuple_inv v ts : wt v (TyTuple ts) -> exists l, v = VTup l /\ Forall2 wt l ts.
Proof. intros W. inversion W; subst. eauto. Qed.
Lemma option_inv v t : wt v (Ty "Option" [t]) -> v = VCon "None" [] \/ exists x, v = VCon "Some" [x] /\ wt x t.
Proof.
  intros W. inversion W; subst; eauto; exfalso.
  match goal with H : In _ _ |- _ => apply struct_lookup in H; vm_compute in H; discriminate H end.
Qed.
Lemma box_inv v t : wt v (Ty "Box" [t]) -> exists x, v = VCon "Box::new" [x] /\ wt x t.
Proof.
  intros W. inversion W; subst; eauto; exfalso.
  match goal with H : In _ _ |- _ => apply struct_lookup in H; vm_compute in H; discriminate H end.
Qed.
Lemma vec_inv v t : wt v (Ty "Vec" [t]) -> exists l, v = VVec l /\ Forall (fun x => wt x t) l.
Proof.
  intros W. inversion W; subst; eauto; exfalso.
  match goal with H : In _ _ |- _ => apply struct_lookup in H; vm_compute in H; discriminate H end.
Qed.
Ltac istruct W fs F :=
  lazymatch type of W with
  | wt _ (Ty ?n ?args) =>
      let r := eval vm_compute in (lookup n structs) in
      lazymatch r with
      | Some (?ds, (?vs, ?fields)) => destruct (inv_struct _ n args ds vs fields W ltac:(vm_compute; reflexivity) ltac:(vm_compute; reflexivity)) as (fs & -> & F)
      end
  end.
Ltac ienum W c t x E :=
  lazymatch type of W with
  | wt _ (Ty ?n _) =>
      let r := eval vm_compute in (lookup n enum_decls) in
      lazymatch r with
      | Some (?ds, ?vs) => let W' := fresh in destruct (inv_enum _ n ds vs W ltac:(vm_compute; reflexivity) ltac:(vm_compute; reflexivity)) as (c & t & x & -> & E & W'); clear W; rename W' into W
      end
  end.

(** ** Values as trees *)
Fixpoint sz (v : value) : nat :=
  match v with
  | VTup l | VVec l | VCon _ l => S (list_sum (map sz l))
  | VData _ _ fs => S (list_sum (map (fun f => sz (snd f)) fs))
  | _ => 1
  end.
(** Every value of at most [n] nodes of the type is the value of a tree. *)
Definition Onto {A} (n : nat) (t : rty) (enc : A -> value) : Prop := forall v, sz v <= n -> wt v t -> exists x, v = enc x.
Lemma Onto_O A t (enc : A -> value) : Onto 0 t enc.
Proof. intros v L. destruct v; cbn in L; lia. Qed.
Ltac msize := match goal with L : sz _ <= ?n |- _ => destruct n as [|m]; cbn [sz map snd list_sum fold_right] in L; [lia|] end.
Ltac msize' := match goal with L : sz _ <= _ |- _ => cbn [sz map snd list_sum fold_right] in L end.
Lemma on_term s v : wt v (Ty s []) -> match lookup s structs with Some (_, (_, [])) => true | _ => false end && none (lookup s enum_decls) && negb (library s) = true -> v = vt s.
Proof.
  intros W H. destruct (lookup s structs) as [[ds [vs [|? ?]]]|] eqn:L; try discriminate H. apply (inv_struct _ _ _ _ _ _ W) in L; [|exact H].
  destruct L as (fs & -> & F). apply nil_inv in F. subst fs. reflexivity.
Qed.
Lemma on_pair a b v : wt v (TyTuple [Ty a []; Ty b []]) ->
  match lookup a structs with Some (_, (_, [])) => true | _ => false end && none (lookup a enum_decls) && negb (library a) = true ->
  match lookup b structs with Some (_, (_, [])) => true | _ => false end && none (lookup b enum_decls) && negb (library b) = true ->
  v = VTup [vt a; vt b].
Proof.
  intros W Ha Hb. apply tuple_inv in W. destruct W as (l & -> & F).
  apply cons_inv in F. destruct F as (x & l' & -> & X & F). apply cons_inv in F. destruct F as (y & l & -> & Y & F). apply nil_inv in F. subst.
  apply on_term in X; [|exact Ha]. apply on_term in Y; [|exact Hb]. subst. reflexivity.
Qed.
Lemma onto_EmptyArrayLit v : wt v (Ty "EmptyArrayLit" []) -> v = enc_EmptyArrayLit.
Proof.
  intros W. istruct W fs F. destruct (field_inv _ _ _ _ F) as (v0 & l0 & -> & W0 & F0). destruct (field_inv _ _ _ _ F0) as (v1 & l1 & -> & W1 & F1).
  apply nil_inv in F1. subst. apply on_term in W0; [|vm_compute; reflexivity]. apply on_term in W1; [|vm_compute; reflexivity]. subst. reflexivity.
Qed.
Lemma onto_EmptyDictionaryLit v : wt v (Ty "EmptyDictionaryLit" []) -> v = enc_EmptyDictionaryLit.
Proof.
  intros W. istruct W fs F. destruct (field_inv _ _ _ _ F) as (v0 & l0 & -> & W0 & F0). destruct (field_inv _ _ _ _ F0) as (v1 & l1 & -> & W1 & F1).
  apply nil_inv in F1. subst. apply on_term in W0; [|vm_compute; reflexivity]. apply on_term in W1; [|vm_compute; reflexivity]. subst. reflexivity.
Qed.
Lemma on_vu n s : match lookup s structs with Some (_, (_, [])) => true | _ => false end && none (lookup s enum_decls) && negb (library s) = true -> Onto n (Ty s []) (vu s).
Proof. intros H v _ W. exists tt. apply on_term in W; [exact W|exact H]. Qed.
Lemma on_option n t A (enc : A -> value) : Onto n t enc -> Onto n (Ty "Option" [t]) (enc_Option enc).
Proof.
  intros H v L W. apply option_inv in W. destruct W as [->|(x & -> & W)]; [exists None; reflexivity|]. cbn in L.
  destruct (H x ltac:(lia) W) as [y ->]. exists (Some y). reflexivity.
Qed.
Lemma on_box n t A (enc : A -> value) : Onto n t enc -> Onto n (Ty "Box" [t]) (enc_Box enc).
Proof. intros H v L W. apply box_inv in W. destruct W as (x & -> & W). cbn in L. destruct (H x ltac:(lia) W) as [y ->]. exists y. reflexivity. Qed.
Lemma on_map n t A (enc : A -> value) l : Onto n t enc -> list_sum (map sz l) <= n -> Forall (fun x => wt x t) l -> exists m, l = map enc m.
Proof.
  intros H L W. induction W as [|x l Hx Hl IH]; [exists []; reflexivity|]. change (sz x + list_sum (map sz l) <= n) in L. destruct IH as [m ->]; [lia|].
  destruct (H x ltac:(lia) Hx) as [y ->]. exists (y :: m). reflexivity.
Qed.
Lemma on_vec n t A (enc : A -> value) : Onto n t enc -> Onto n (Ty "Vec" [t]) (enc_Vec enc).
Proof.
  intros H v L W. apply vec_inv in W. destruct W as (l & -> & W). cbn [sz] in L. destruct (on_map n _ _ _ l H ltac:(lia) W) as [m ->]. exists m. reflexivity.
Qed.
Ltac three x :=
  match goal with F : Forall2 _ _ _ |- _ =>
    destruct (field_inv _ _ _ _ F) as (v0 & l0 & -> & W0 & F0); destruct (field_inv _ _ _ _ F0) as (v1 & l1 & -> & W1 & F1);
    destruct (field_inv _ _ _ _ F1) as (v2 & l2 & -> & W2 & F2); apply nil_inv in F2; subst; msize';
    apply on_term in W0; [|vm_compute; reflexivity]; apply on_term in W2; [|vm_compute; reflexivity]; subst
  end.
Lemma on_Parenthesized n t A (enc : A -> value) : Onto n t enc -> Onto n (Ty "Parenthesized" [t]) (enc_Parenthesized enc).
Proof. intros H v L W. istruct W fs F. three x. destruct (H v1 ltac:(lia) W1) as [x ->]. exists x. reflexivity. Qed.
Lemma on_Bracketed n t A (enc : A -> value) : Onto n t enc -> Onto n (Ty "Bracketed" [t]) (enc_Bracketed enc).
Proof. intros H v L W. istruct W fs F. three x. destruct (H v1 ltac:(lia) W1) as [x ->]. exists x. reflexivity. Qed.
Lemma on_Braced n t A (enc : A -> value) : Onto n t enc -> Onto n (Ty "Braced" [t]) (enc_Braced enc).
Proof. intros H v L W. istruct W fs F. three x. destruct (H v1 ltac:(lia) W1) as [x ->]. exists x. reflexivity. Qed.
Lemma on_Generics n t A (enc : A -> value) : Onto n t enc -> Onto n (Ty "Generics" [t]) (enc_Generics enc).
Proof. intros H v L W. istruct W fs F. three x. destruct (H v1 ltac:(lia) W1) as [x ->]. exists x. reflexivity. Qed.
Lemma on_Punctuated n t s A (enc : A -> value) : Onto n t enc ->
  match lookup s structs with Some (_, (_, [])) => true | _ => false end && none (lookup s enum_decls) && negb (library s) = true ->
  Onto n (Ty "Punctuated" [t; Ty s []]) (enc_Punctuated (vt s) enc).
Proof.
  intros H Hs v L W. istruct W fs F. destruct (field_inv _ _ _ _ F) as (v0 & l0 & -> & W0 & F0). destruct (field_inv _ _ _ _ F0) as (v1 & l1 & -> & W1 & F1).
  apply nil_inv in F1. subst. apply on_term in W1; [|exact Hs]. subst. apply vec_inv in W0. destruct W0 as (l & -> & W'). msize'.
  destruct (on_map n _ _ _ l H ltac:(lia) W') as [m ->]. exists m. reflexivity.
Qed.
Lemma on_PunctuatedNonEmpty n t s A (enc : A -> value) : Onto n t enc ->
  match lookup s structs with Some (_, (_, [])) => true | _ => false end && none (lookup s enum_decls) && negb (library s) = true ->
  Onto n (Ty "PunctuatedNonEmpty" [t; Ty s []]) (enc_PunctuatedNonEmpty (vt s) enc).
Proof.
  intros H Hs v L W. istruct W fs F. destruct (field_inv _ _ _ _ F) as (v0 & l0 & -> & W0 & F0). destruct (field_inv _ _ _ _ F0) as (v1 & l1 & -> & W1 & F1).
  apply nil_inv in F1. subst. apply on_term in W1; [|exact Hs]. subst. apply vec_inv in W0. destruct W0 as (l & -> & W'). msize'.
  destruct (on_map n _ _ _ l H ltac:(lia) W') as [m ->]. exists m. reflexivity.
Qed.
Lemma on_MayBeNull n t (A : Set) (enc : A -> value) : Onto n t enc -> Onto n (Ty "MayBeNull" [t]) (enc_MayBeNull enc).
Proof.
  intros H v L W. istruct W fs F. destruct (field_inv _ _ _ _ F) as (v0 & l0 & -> & W0 & F0). destruct (field_inv _ _ _ _ F0) as (v1 & l1 & -> & W1 & F1).
  apply nil_inv in F1. subst. msize'. destruct (H v0 ltac:(lia) W0) as [x ->].
  destruct (on_option n _ _ _ (on_vu n "term::QMark" ltac:(vm_compute; reflexivity)) v1 ltac:(lia) W1) as [q ->]. exists (mkMayBeNull x q). reflexivity.
Qed.
Lemma on_triple n t u s A (f : A -> value) B (g : B -> value) : Onto n t f -> Onto n u g ->
  match lookup s structs with Some (_, (_, [])) => true | _ => false end && none (lookup s enum_decls) && negb (library s) = true ->
  Onto n (TyTuple [t; Ty s []; u]) (enc_triple f (vt s) g).
Proof.
  intros H K Hs v L W. apply tuple_inv in W. destruct W as (l & -> & F). apply cons_inv in F. destruct F as (x & l' & -> & X & F).
  apply cons_inv in F. destruct F as (y & l'' & -> & Y & F). apply cons_inv in F. destruct F as (z & l & -> & Z & F). apply nil_inv in F. subst.
  msize'. apply on_term in Y; [|exact Hs]. subst. destruct (H x ltac:(lia) X) as [a ->]. destruct (K z ltac:(lia) Z) as [b ->]. exists (a, b). reflexivity.
Qed.
Ltac oo base :=
  lazymatch goal with
  | |- Onto _ _ (enc_Option _) => apply on_option; oo base
  | |- Onto _ _ (enc_Box _) => apply on_box; oo base
  | |- Onto _ _ (enc_Vec _) => apply on_vec; oo base
  | |- Onto _ _ (enc_Parenthesized _) => apply on_Parenthesized; oo base
  | |- Onto _ _ (enc_Bracketed _) => apply on_Bracketed; oo base
  | |- Onto _ _ (enc_Braced _) => apply on_Braced; oo base
  | |- Onto _ _ (enc_Generics _) => apply on_Generics; oo base
  | |- Onto _ _ (enc_MayBeNull _) => apply on_MayBeNull; oo base
  | |- Onto _ _ (enc_Punctuated _ _) => apply on_Punctuated; [oo base|vm_compute; reflexivity]
  | |- Onto _ _ (enc_PunctuatedNonEmpty _ _) => apply on_PunctuatedNonEmpty; [oo base|vm_compute; reflexivity]
  | |- Onto _ _ (enc_triple _ _ _) => apply on_triple; [oo base|oo base|vm_compute; reflexivity]
  | |- Onto _ _ (vu _) => apply on_vu; vm_compute; reflexivity
  | |- _ => base
  end.
Lemma onto_Identifier n : Onto n (Ty "Identifier" []) enc_Identifier.
Proof.
  intros v L W. istruct W fs F. destruct (field_inv _ _ _ _ F) as (v0 & l0 & -> & W0 & F0). apply nil_inv in F0. subst. msize. apply str_inv in W0. destruct W0 as [x0 ->]. exists x0. reflexivity.
Qed.
#[export] Hint Resolve onto_Identifier : onto.
Lemma onto_StringLit n : Onto n (Ty "StringLit" []) enc_StringLit.
Proof.
  intros v L W. istruct W fs F. destruct (field_inv _ _ _ _ F) as (v0 & l0 & -> & W0 & F0). apply nil_inv in F0. subst. msize. apply str_inv in W0. destruct W0 as [x0 ->]. exists x0. reflexivity.
Qed.
#[export] Hint Resolve onto_StringLit : onto.
Lemma onto_DecLit n : Onto n (Ty "DecLit" []) enc_DecLit.
Proof.
  intros v L W. istruct W fs F. destruct (field_inv _ _ _ _ F) as (v0 & l0 & -> & W0 & F0). apply nil_inv in F0. subst. msize. apply str_inv in W0. destruct W0 as [x0 ->]. exists x0. reflexivity.
Qed.
#[export] Hint Resolve onto_DecLit : onto.
Lemma onto_HexLit n : Onto n (Ty "HexLit" []) enc_HexLit.
Proof.
  intros v L W. istruct W fs F. destruct (field_inv _ _ _ _ F) as (v0 & l0 & -> & W0 & F0). apply nil_inv in F0. subst. msize. apply str_inv in W0. destruct W0 as [x0 ->]. exists x0. reflexivity.
Qed.
#[export] Hint Resolve onto_HexLit : onto.
Lemma onto_OctLit n : Onto n (Ty "OctLit" []) enc_OctLit.
Proof.
  intros v L W. istruct W fs F. destruct (field_inv _ _ _ _ F) as (v0 & l0 & -> & W0 & F0). apply nil_inv in F0. subst. msize. apply str_inv in W0. destruct W0 as [x0 ->]. exists x0. reflexivity.
Qed.
#[export] Hint Resolve onto_OctLit : onto.
Lemma onto_FloatValueLit n : Onto n (Ty "FloatValueLit" []) enc_FloatValueLit.
Proof.
  intros v L W. istruct W fs F. destruct (field_inv _ _ _ _ F) as (v0 & l0 & -> & W0 & F0). apply nil_inv in F0. subst. msize. apply str_inv in W0. destruct W0 as [x0 ->]. exists x0. reflexivity.
Qed.
#[export] Hint Resolve onto_FloatValueLit : onto.
Lemma onto_BooleanLit n : Onto n (Ty "BooleanLit" []) enc_BooleanLit.
Proof.
  intros v L W. istruct W fs F. destruct (field_inv _ _ _ _ F) as (v0 & l0 & -> & W0 & F0). apply nil_inv in F0. subst. msize. apply bool_inv in W0. destruct W0 as [x0 ->]. exists x0. reflexivity.
Qed.
#[export] Hint Resolve onto_BooleanLit : onto.
Lemma onto_ExtendedAttributeNoArgs n : Onto n (Ty "ExtendedAttributeNoArgs" []) enc_ExtendedAttributeNoArgs.
Proof.
  intros v L W. istruct W fs F. destruct (field_inv _ _ _ _ F) as (v0 & l0 & -> & W0 & F0). apply nil_inv in F0. subst. msize. assert (G : Onto m (Ty "Identifier" []) enc_Identifier) by oo ltac:(auto with onto). destruct (G v0 ltac:(lia) W0) as [x0 ->]. clear G. exists x0. reflexivity.
Qed.
#[export] Hint Resolve onto_ExtendedAttributeNoArgs : onto.
Lemma onto_FloatLit n : Onto n (Ty "FloatLit" []) enc_FloatLit.
Proof.
  intros v L W. ienum W c t x E. msize. 
    destruct E as [[= <- <-]|E].
    { assert (G : Onto m (Ty "FloatValueLit" []) enc_FloatValueLit) by oo ltac:(auto with onto). destruct (G x ltac:(lia) W) as [y ->]. clear G. exists (FloatLit_Value y). reflexivity. } 
    destruct E as [[= <- <-]|E].
    { apply on_term in W; [|vm_compute; reflexivity]. subst x. exists FloatLit_NegInfinity. reflexivity. } 
    destruct E as [[= <- <-]|E].
    { apply on_term in W; [|vm_compute; reflexivity]. subst x. exists FloatLit_Infinity. reflexivity. } 
    destruct E as [[= <- <-]|E].
    { apply on_term in W; [|vm_compute; reflexivity]. subst x. exists FloatLit_NaN. reflexivity. } 
    destruct E.
Qed.
#[export] Hint Resolve onto_FloatLit : onto.
Lemma onto_IntegerLit n : Onto n (Ty "IntegerLit" []) enc_IntegerLit.
Proof.
  intros v L W. ienum W c t x E. msize. 
    destruct E as [[= <- <-]|E].
    { assert (G : Onto m (Ty "DecLit" []) enc_DecLit) by oo ltac:(auto with onto). destruct (G x ltac:(lia) W) as [y ->]. clear G. exists (IntegerLit_Dec y). reflexivity. } 
    destruct E as [[= <- <-]|E].
    { assert (G : Onto m (Ty "HexLit" []) enc_HexLit) by oo ltac:(auto with onto). destruct (G x ltac:(lia) W) as [y ->]. clear G. exists (IntegerLit_Hex y). reflexivity. } 
    destruct E as [[= <- <-]|E].
    { assert (G : Onto m (Ty "OctLit" []) enc_OctLit) by oo ltac:(auto with onto). destruct (G x ltac:(lia) W) as [y ->]. clear G. exists (IntegerLit_Oct y). reflexivity. } 
    destruct E.
Qed.
#[export] Hint Resolve onto_IntegerLit : onto.
Lemma onto_DefaultValue n : Onto n (Ty "DefaultValue" []) enc_DefaultValue.
Proof.
  intros v L W. ienum W c t x E. msize. 
    destruct E as [[= <- <-]|E].
    { assert (G : Onto m (Ty "BooleanLit" []) enc_BooleanLit) by oo ltac:(auto with onto). destruct (G x ltac:(lia) W) as [y ->]. clear G. exists (DefaultValue_Boolean y). reflexivity. } 
    destruct E as [[= <- <-]|E].
    { apply onto_EmptyArrayLit in W. subst x. exists DefaultValue_EmptyArray. reflexivity. } 
    destruct E as [[= <- <-]|E].
    { apply onto_EmptyDictionaryLit in W. subst x. exists DefaultValue_EmptyDictionary. reflexivity. } 
    destruct E as [[= <- <-]|E].
    { assert (G : Onto m (Ty "FloatLit" []) enc_FloatLit) by oo ltac:(auto with onto). destruct (G x ltac:(lia) W) as [y ->]. clear G. exists (DefaultValue_Float y). reflexivity. } 
    destruct E as [[= <- <-]|E].
    { assert (G : Onto m (Ty "IntegerLit" []) enc_IntegerLit) by oo ltac:(auto with onto). destruct (G x ltac:(lia) W) as [y ->]. clear G. exists (DefaultValue_Integer y). reflexivity. } 
    destruct E as [[= <- <-]|E].
    { apply on_term in W; [|vm_compute; reflexivity]. subst x. exists DefaultValue_Null. reflexivity. } 
    destruct E as [[= <- <-]|E].
    { assert (G : Onto m (Ty "StringLit" []) enc_StringLit) by oo ltac:(auto with onto). destruct (G x ltac:(lia) W) as [y ->]. clear G. exists (DefaultValue_String y). reflexivity. } 
    destruct E.
Qed.
#[export] Hint Resolve onto_DefaultValue : onto.
Lemma onto_Default n : Onto n (Ty "Default" []) enc_Default.
Proof.
  intros v L W. istruct W fs F. destruct (field_inv _ _ _ _ F) as (v0 & l0 & -> & W0 & F0). destruct (field_inv _ _ _ _ F0) as (v1 & l1 & -> & W1 & F1). apply nil_inv in F1. subst. msize. apply on_term in W0; [|vm_compute; reflexivity]. subst v0. assert (G : Onto m (Ty "DefaultValue" []) enc_DefaultValue) by oo ltac:(auto with onto). destruct (G v1 ltac:(lia) W1) as [x1 ->]. clear G. exists x1. reflexivity.
Qed.
#[export] Hint Resolve onto_Default : onto.
Lemma onto_LongLongType n : Onto n (Ty "LongLongType" []) enc_LongLongType.
Proof.
  intros v L W. istruct W fs F. destruct (field_inv _ _ _ _ F) as (v0 & l0 & -> & W0 & F0). destruct (field_inv _ _ _ _ F0) as (v1 & l1 & -> & W1 & F1). apply nil_inv in F1. subst. msize. assert (G : Onto m (Ty "Option" [(Ty "term::Unsigned" [])]) (enc_Option (vu "term::Unsigned"))) by oo ltac:(auto with onto). destruct (G v0 ltac:(lia) W0) as [x0 ->]. clear G. apply on_pair in W1; [|vm_compute; reflexivity|vm_compute; reflexivity]. subst v1. exists (mkLongLongType x0). reflexivity.
Qed.
#[export] Hint Resolve onto_LongLongType : onto.
Lemma onto_LongType n : Onto n (Ty "LongType" []) enc_LongType.
Proof.
  intros v L W. istruct W fs F. destruct (field_inv _ _ _ _ F) as (v0 & l0 & -> & W0 & F0). destruct (field_inv _ _ _ _ F0) as (v1 & l1 & -> & W1 & F1). apply nil_inv in F1. subst. msize. assert (G : Onto m (Ty "Option" [(Ty "term::Unsigned" [])]) (enc_Option (vu "term::Unsigned"))) by oo ltac:(auto with onto). destruct (G v0 ltac:(lia) W0) as [x0 ->]. clear G. apply on_term in W1; [|vm_compute; reflexivity]. subst v1. exists (mkLongType x0). reflexivity.
Qed.
#[export] Hint Resolve onto_LongType : onto.
Lemma onto_ShortType n : Onto n (Ty "ShortType" []) enc_ShortType.
Proof.
  intros v L W. istruct W fs F. destruct (field_inv _ _ _ _ F) as (v0 & l0 & -> & W0 & F0). destruct (field_inv _ _ _ _ F0) as (v1 & l1 & -> & W1 & F1). apply nil_inv in F1. subst. msize. assert (G : Onto m (Ty "Option" [(Ty "term::Unsigned" [])]) (enc_Option (vu "term::Unsigned"))) by oo ltac:(auto with onto). destruct (G v0 ltac:(lia) W0) as [x0 ->]. clear G. apply on_term in W1; [|vm_compute; reflexivity]. subst v1. exists (mkShortType x0). reflexivity.
Qed.
#[export] Hint Resolve onto_ShortType : onto.
Lemma onto_IntegerType n : Onto n (Ty "IntegerType" []) enc_IntegerType.
Proof.
  intros v L W. ienum W c t x E. msize. 
    destruct E as [[= <- <-]|E].
    { assert (G : Onto m (Ty "LongLongType" []) enc_LongLongType) by oo ltac:(auto with onto). destruct (G x ltac:(lia) W) as [y ->]. clear G. exists (IntegerType_LongLong y). reflexivity. } 
    destruct E as [[= <- <-]|E].
    { assert (G : Onto m (Ty "LongType" []) enc_LongType) by oo ltac:(auto with onto). destruct (G x ltac:(lia) W) as [y ->]. clear G. exists (IntegerType_Long y). reflexivity. } 
    destruct E as [[= <- <-]|E].
    { assert (G : Onto m (Ty "ShortType" []) enc_ShortType) by oo ltac:(auto with onto). destruct (G x ltac:(lia) W) as [y ->]. clear G. exists (IntegerType_Short y). reflexivity. } 
    destruct E.
Qed.
#[export] Hint Resolve onto_IntegerType : onto.
Lemma onto_FloatType n : Onto n (Ty "FloatType" []) enc_FloatType.
Proof.
  intros v L W. istruct W fs F. destruct (field_inv _ _ _ _ F) as (v0 & l0 & -> & W0 & F0). destruct (field_inv _ _ _ _ F0) as (v1 & l1 & -> & W1 & F1). apply nil_inv in F1. subst. msize. assert (G : Onto m (Ty "Option" [(Ty "term::Unrestricted" [])]) (enc_Option (vu "term::Unrestricted"))) by oo ltac:(auto with onto). destruct (G v0 ltac:(lia) W0) as [x0 ->]. clear G. apply on_term in W1; [|vm_compute; reflexivity]. subst v1. exists (mkFloatType x0). reflexivity.
Qed.
#[export] Hint Resolve onto_FloatType : onto.
Lemma onto_DoubleType n : Onto n (Ty "DoubleType" []) enc_DoubleType.
Proof.
  intros v L W. istruct W fs F. destruct (field_inv _ _ _ _ F) as (v0 & l0 & -> & W0 & F0). destruct (field_inv _ _ _ _ F0) as (v1 & l1 & -> & W1 & F1). apply nil_inv in F1. subst. msize. assert (G : Onto m (Ty "Option" [(Ty "term::Unrestricted" [])]) (enc_Option (vu "term::Unrestricted"))) by oo ltac:(auto with onto). destruct (G v0 ltac:(lia) W0) as [x0 ->]. clear G. apply on_term in W1; [|vm_compute; reflexivity]. subst v1. exists (mkDoubleType x0). reflexivity.
Qed.
#[export] Hint Resolve onto_DoubleType : onto.
Lemma onto_FloatingPointType n : Onto n (Ty "FloatingPointType" []) enc_FloatingPointType.
Proof.
  intros v L W. ienum W c t x E. msize. 
    destruct E as [[= <- <-]|E].
    { assert (G : Onto m (Ty "FloatType" []) enc_FloatType) by oo ltac:(auto with onto). destruct (G x ltac:(lia) W) as [y ->]. clear G. exists (FloatingPointType_Float y). reflexivity. } 
    destruct E as [[= <- <-]|E].
    { assert (G : Onto m (Ty "DoubleType" []) enc_DoubleType) by oo ltac:(auto with onto). destruct (G x ltac:(lia) W) as [y ->]. clear G. exists (FloatingPointType_Double y). reflexivity. } 
    destruct E.
Qed.
#[export] Hint Resolve onto_FloatingPointType : onto.
Lemma onto_ExtendedAttributeIdentList n : Onto n (Ty "ExtendedAttributeIdentList" []) enc_ExtendedAttributeIdentList.
Proof.
  intros v L W. istruct W fs F. destruct (field_inv _ _ _ _ F) as (v0 & l0 & -> & W0 & F0). destruct (field_inv _ _ _ _ F0) as (v1 & l1 & -> & W1 & F1). destruct (field_inv _ _ _ _ F1) as (v2 & l2 & -> & W2 & F2). apply nil_inv in F2. subst. msize. assert (G : Onto m (Ty "Identifier" []) enc_Identifier) by oo ltac:(auto with onto). destruct (G v0 ltac:(lia) W0) as [x0 ->]. clear G. apply on_term in W1; [|vm_compute; reflexivity]. subst v1. assert (G : Onto m (Ty "Parenthesized" [(Ty "Punctuated" [(Ty "Identifier" []); (Ty "term::Comma" [])])]) (enc_Parenthesized (enc_Punctuated (vt "term::Comma") enc_Identifier))) by oo ltac:(auto with onto). destruct (G v2 ltac:(lia) W2) as [x2 ->]. clear G. exists (mkExtendedAttributeIdentList x0 x2). reflexivity.
Qed.
#[export] Hint Resolve onto_ExtendedAttributeIdentList : onto.
Lemma onto_IdentifierOrString n : Onto n (Ty "IdentifierOrString" []) enc_IdentifierOrString.
Proof.
  intros v L W. ienum W c t x E. msize. 
    destruct E as [[= <- <-]|E].
    { assert (G : Onto m (Ty "Identifier" []) enc_Identifier) by oo ltac:(auto with onto). destruct (G x ltac:(lia) W) as [y ->]. clear G. exists (IdentifierOrString_Identifier y). reflexivity. } 
    destruct E as [[= <- <-]|E].
    { assert (G : Onto m (Ty "StringLit" []) enc_StringLit) by oo ltac:(auto with onto). destruct (G x ltac:(lia) W) as [y ->]. clear G. exists (IdentifierOrString_String y). reflexivity. } 
    destruct E.
Qed.
#[export] Hint Resolve onto_IdentifierOrString : onto.
Lemma onto_ExtendedAttributeIdent n : Onto n (Ty "ExtendedAttributeIdent" []) enc_ExtendedAttributeIdent.
Proof.
  intros v L W. istruct W fs F. destruct (field_inv _ _ _ _ F) as (v0 & l0 & -> & W0 & F0). destruct (field_inv _ _ _ _ F0) as (v1 & l1 & -> & W1 & F1). destruct (field_inv _ _ _ _ F1) as (v2 & l2 & -> & W2 & F2). apply nil_inv in F2. subst. msize. assert (G : Onto m (Ty "Identifier" []) enc_Identifier) by oo ltac:(auto with onto). destruct (G v0 ltac:(lia) W0) as [x0 ->]. clear G. apply on_term in W1; [|vm_compute; reflexivity]. subst v1. assert (G : Onto m (Ty "IdentifierOrString" []) enc_IdentifierOrString) by oo ltac:(auto with onto). destruct (G v2 ltac:(lia) W2) as [x2 ->]. clear G. exists (mkExtendedAttributeIdent x0 x2). reflexivity.
Qed.
#[export] Hint Resolve onto_ExtendedAttributeIdent : onto.
Lemma onto_ExtendedAttributeWildCard n : Onto n (Ty "ExtendedAttributeWildCard" []) enc_ExtendedAttributeWildCard.
Proof.
  intros v L W. istruct W fs F. destruct (field_inv _ _ _ _ F) as (v0 & l0 & -> & W0 & F0). destruct (field_inv _ _ _ _ F0) as (v1 & l1 & -> & W1 & F1). destruct (field_inv _ _ _ _ F1) as (v2 & l2 & -> & W2 & F2). apply nil_inv in F2. subst. msize. assert (G : Onto m (Ty "Identifier" []) enc_Identifier) by oo ltac:(auto with onto). destruct (G v0 ltac:(lia) W0) as [x0 ->]. clear G. apply on_term in W1; [|vm_compute; reflexivity]. subst v1. apply on_term in W2; [|vm_compute; reflexivity]. subst v2. exists (mkExtendedAttributeWildCard x0). reflexivity.
Qed.
#[export] Hint Resolve onto_ExtendedAttributeWildCard : onto.
(** The types that contain each other: by induction on the size of the value. *)
Lemma onto_types n : Onto n (Ty "Type" []) enc_Type /\
  Onto n (Ty "SingleType" []) enc_SingleType /\
  Onto n (Ty "NonAnyType" []) enc_NonAnyType /\
  Onto n (Ty "SequenceType" []) enc_SequenceType /\
  Onto n (Ty "FrozenArrayType" []) enc_FrozenArrayType /\
  Onto n (Ty "PromiseType" []) enc_PromiseType /\
  Onto n (Ty "RecordType" []) enc_RecordType /\
  Onto n (Ty "RecordKeyType" []) enc_RecordKeyType /\
  Onto n (Ty "UnionMemberType" []) enc_UnionMemberType /\
  Onto n (Ty "ReturnType" []) enc_ReturnType /\
  Onto n (Ty "AttributedType" []) enc_AttributedType /\
  Onto n (Ty "AttributedNonAnyType" []) enc_AttributedNonAnyType /\
  Onto n (Ty "ExtendedAttribute" []) enc_ExtendedAttribute /\
  Onto n (Ty "ExtendedAttributeArgList" []) enc_ExtendedAttributeArgList /\
  Onto n (Ty "ExtendedAttributeNamedArgList" []) enc_ExtendedAttributeNamedArgList /\
  Onto n (Ty "Argument" []) enc_Argument /\
  Onto n (Ty "SingleArgument" []) enc_SingleArgument /\
  Onto n (Ty "VariadicArgument" []) enc_VariadicArgument.
Proof.
  induction n as [|m IH]; [repeat split; apply Onto_O|].
  destruct IH as (R_Type & R_SingleType & R_NonAnyType & R_SequenceType & R_FrozenArrayType & R_PromiseType & R_RecordType & R_RecordKeyType & R_UnionMemberType & R_ReturnType & R_AttributedType & R_AttributedNonAnyType & R_ExtendedAttribute & R_ExtendedAttributeArgList & R_ExtendedAttributeNamedArgList & R_Argument & R_SingleArgument & R_VariadicArgument).
  repeat split.
  - intros v L W. ienum W c t x E. msize'. 
    destruct E as [[= <- <-]|E].
    { assert (G : Onto m (Ty "SingleType" []) enc_SingleType) by oo ltac:(first [assumption|auto with onto]). destruct (G x ltac:(lia) W) as [y ->]. clear G. exists (Type_Single y). reflexivity. } 
    destruct E as [[= <- <-]|E].
    { assert (G : Onto m (Ty "MayBeNull" [(Ty "Parenthesized" [(Ty "Punctuated" [(Ty "UnionMemberType" []); (Ty "term::Or" [])])])]) (enc_MayBeNull (enc_Parenthesized (enc_Punctuated (vt "term::Or") enc_UnionMemberType)))) by oo ltac:(first [assumption|auto with onto]). destruct (G x ltac:(lia) W) as [y ->]. clear G. exists (Type_Union y). reflexivity. } 
    destruct E.
  - intros v L W. ienum W c t x E. msize'. 
    destruct E as [[= <- <-]|E].
    { apply on_term in W; [|vm_compute; reflexivity]. subst x. exists SingleType_Any. reflexivity. } 
    destruct E as [[= <- <-]|E].
    { assert (G : Onto m (Ty "NonAnyType" []) enc_NonAnyType) by oo ltac:(first [assumption|auto with onto]). destruct (G x ltac:(lia) W) as [y ->]. clear G. exists (SingleType_NonAny y). reflexivity. } 
    destruct E.
  - intros v L W. ienum W c t x E. msize'. 
    destruct E as [[= <- <-]|E].
    { assert (G : Onto m (Ty "PromiseType" []) enc_PromiseType) by oo ltac:(first [assumption|auto with onto]). destruct (G x ltac:(lia) W) as [y ->]. clear G. exists (NonAnyType_Promise y). reflexivity. } 
    destruct E as [[= <- <-]|E].
    { assert (G : Onto m (Ty "MayBeNull" [(Ty "IntegerType" [])]) (enc_MayBeNull enc_IntegerType)) by oo ltac:(first [assumption|auto with onto]). destruct (G x ltac:(lia) W) as [y ->]. clear G. exists (NonAnyType_Integer y). reflexivity. } 
    destruct E as [[= <- <-]|E].
    { assert (G : Onto m (Ty "MayBeNull" [(Ty "FloatingPointType" [])]) (enc_MayBeNull enc_FloatingPointType)) by oo ltac:(first [assumption|auto with onto]). destruct (G x ltac:(lia) W) as [y ->]. clear G. exists (NonAnyType_FloatingPoint y). reflexivity. } 
    destruct E as [[= <- <-]|E].
    { assert (G : Onto m (Ty "MayBeNull" [(Ty "term::Boolean" [])]) (enc_MayBeNull (vu "term::Boolean"))) by oo ltac:(first [assumption|auto with onto]). destruct (G x ltac:(lia) W) as [y ->]. clear G. exists (NonAnyType_Boolean y). reflexivity. } 
    destruct E as [[= <- <-]|E].
    { assert (G : Onto m (Ty "MayBeNull" [(Ty "term::Byte" [])]) (enc_MayBeNull (vu "term::Byte"))) by oo ltac:(first [assumption|auto with onto]). destruct (G x ltac:(lia) W) as [y ->]. clear G. exists (NonAnyType_Byte y). reflexivity. } 
    destruct E as [[= <- <-]|E].
    { assert (G : Onto m (Ty "MayBeNull" [(Ty "term::Octet" [])]) (enc_MayBeNull (vu "term::Octet"))) by oo ltac:(first [assumption|auto with onto]). destruct (G x ltac:(lia) W) as [y ->]. clear G. exists (NonAnyType_Octet y). reflexivity. } 
    destruct E as [[= <- <-]|E].
    { assert (G : Onto m (Ty "MayBeNull" [(Ty "term::ByteString" [])]) (enc_MayBeNull (vu "term::ByteString"))) by oo ltac:(first [assumption|auto with onto]). destruct (G x ltac:(lia) W) as [y ->]. clear G. exists (NonAnyType_ByteString y). reflexivity. } 
    destruct E as [[= <- <-]|E].
    { assert (G : Onto m (Ty "MayBeNull" [(Ty "term::DOMString" [])]) (enc_MayBeNull (vu "term::DOMString"))) by oo ltac:(first [assumption|auto with onto]). destruct (G x ltac:(lia) W) as [y ->]. clear G. exists (NonAnyType_DOMString y). reflexivity. } 
    destruct E as [[= <- <-]|E].
    { assert (G : Onto m (Ty "MayBeNull" [(Ty "term::USVString" [])]) (enc_MayBeNull (vu "term::USVString"))) by oo ltac:(first [assumption|auto with onto]). destruct (G x ltac:(lia) W) as [y ->]. clear G. exists (NonAnyType_USVString y). reflexivity. } 
    destruct E as [[= <- <-]|E].
    { assert (G : Onto m (Ty "MayBeNull" [(Ty "SequenceType" [])]) (enc_MayBeNull enc_SequenceType)) by oo ltac:(first [assumption|auto with onto]). destruct (G x ltac:(lia) W) as [y ->]. clear G. exists (NonAnyType_Sequence y). reflexivity. } 
    destruct E as [[= <- <-]|E].
    { assert (G : Onto m (Ty "MayBeNull" [(Ty "term::Object" [])]) (enc_MayBeNull (vu "term::Object"))) by oo ltac:(first [assumption|auto with onto]). destruct (G x ltac:(lia) W) as [y ->]. clear G. exists (NonAnyType_Object y). reflexivity. } 
    destruct E as [[= <- <-]|E].
    { assert (G : Onto m (Ty "MayBeNull" [(Ty "term::Symbol" [])]) (enc_MayBeNull (vu "term::Symbol"))) by oo ltac:(first [assumption|auto with onto]). destruct (G x ltac:(lia) W) as [y ->]. clear G. exists (NonAnyType_Symbol y). reflexivity. } 
    destruct E as [[= <- <-]|E].
    { assert (G : Onto m (Ty "MayBeNull" [(Ty "term::Error" [])]) (enc_MayBeNull (vu "term::Error"))) by oo ltac:(first [assumption|auto with onto]). destruct (G x ltac:(lia) W) as [y ->]. clear G. exists (NonAnyType_Error y). reflexivity. } 
    destruct E as [[= <- <-]|E].
    { assert (G : Onto m (Ty "MayBeNull" [(Ty "term::ArrayBuffer" [])]) (enc_MayBeNull (vu "term::ArrayBuffer"))) by oo ltac:(first [assumption|auto with onto]). destruct (G x ltac:(lia) W) as [y ->]. clear G. exists (NonAnyType_ArrayBuffer y). reflexivity. } 
    destruct E as [[= <- <-]|E].
    { assert (G : Onto m (Ty "MayBeNull" [(Ty "term::DataView" [])]) (enc_MayBeNull (vu "term::DataView"))) by oo ltac:(first [assumption|auto with onto]). destruct (G x ltac:(lia) W) as [y ->]. clear G. exists (NonAnyType_DataView y). reflexivity. } 
    destruct E as [[= <- <-]|E].
    { assert (G : Onto m (Ty "MayBeNull" [(Ty "term::Int8Array" [])]) (enc_MayBeNull (vu "term::Int8Array"))) by oo ltac:(first [assumption|auto with onto]). destruct (G x ltac:(lia) W) as [y ->]. clear G. exists (NonAnyType_Int8Array y). reflexivity. } 
    destruct E as [[= <- <-]|E].
    { assert (G : Onto m (Ty "MayBeNull" [(Ty "term::Int16Array" [])]) (enc_MayBeNull (vu "term::Int16Array"))) by oo ltac:(first [assumption|auto with onto]). destruct (G x ltac:(lia) W) as [y ->]. clear G. exists (NonAnyType_Int16Array y). reflexivity. } 
    destruct E as [[= <- <-]|E].
    { assert (G : Onto m (Ty "MayBeNull" [(Ty "term::Int32Array" [])]) (enc_MayBeNull (vu "term::Int32Array"))) by oo ltac:(first [assumption|auto with onto]). destruct (G x ltac:(lia) W) as [y ->]. clear G. exists (NonAnyType_Int32Array y). reflexivity. } 
    destruct E as [[= <- <-]|E].
    { assert (G : Onto m (Ty "MayBeNull" [(Ty "term::Uint8Array" [])]) (enc_MayBeNull (vu "term::Uint8Array"))) by oo ltac:(first [assumption|auto with onto]). destruct (G x ltac:(lia) W) as [y ->]. clear G. exists (NonAnyType_Uint8Array y). reflexivity. } 
    destruct E as [[= <- <-]|E].
    { assert (G : Onto m (Ty "MayBeNull" [(Ty "term::Uint16Array" [])]) (enc_MayBeNull (vu "term::Uint16Array"))) by oo ltac:(first [assumption|auto with onto]). destruct (G x ltac:(lia) W) as [y ->]. clear G. exists (NonAnyType_Uint16Array y). reflexivity. } 
    destruct E as [[= <- <-]|E].
    { assert (G : Onto m (Ty "MayBeNull" [(Ty "term::Uint32Array" [])]) (enc_MayBeNull (vu "term::Uint32Array"))) by oo ltac:(first [assumption|auto with onto]). destruct (G x ltac:(lia) W) as [y ->]. clear G. exists (NonAnyType_Uint32Array y). reflexivity. } 
    destruct E as [[= <- <-]|E].
    { assert (G : Onto m (Ty "MayBeNull" [(Ty "term::Uint8ClampedArray" [])]) (enc_MayBeNull (vu "term::Uint8ClampedArray"))) by oo ltac:(first [assumption|auto with onto]). destruct (G x ltac:(lia) W) as [y ->]. clear G. exists (NonAnyType_Uint8ClampedArray y). reflexivity. } 
    destruct E as [[= <- <-]|E].
    { assert (G : Onto m (Ty "MayBeNull" [(Ty "term::Float32Array" [])]) (enc_MayBeNull (vu "term::Float32Array"))) by oo ltac:(first [assumption|auto with onto]). destruct (G x ltac:(lia) W) as [y ->]. clear G. exists (NonAnyType_Float32Array y). reflexivity. } 
    destruct E as [[= <- <-]|E].
    { assert (G : Onto m (Ty "MayBeNull" [(Ty "term::Float64Array" [])]) (enc_MayBeNull (vu "term::Float64Array"))) by oo ltac:(first [assumption|auto with onto]). destruct (G x ltac:(lia) W) as [y ->]. clear G. exists (NonAnyType_Float64Array y). reflexivity. } 
    destruct E as [[= <- <-]|E].
    { assert (G : Onto m (Ty "MayBeNull" [(Ty "term::ArrayBufferView" [])]) (enc_MayBeNull (vu "term::ArrayBufferView"))) by oo ltac:(first [assumption|auto with onto]). destruct (G x ltac:(lia) W) as [y ->]. clear G. exists (NonAnyType_ArrayBufferView y). reflexivity. } 
    destruct E as [[= <- <-]|E].
    { assert (G : Onto m (Ty "MayBeNull" [(Ty "term::BufferSource" [])]) (enc_MayBeNull (vu "term::BufferSource"))) by oo ltac:(first [assumption|auto with onto]). destruct (G x ltac:(lia) W) as [y ->]. clear G. exists (NonAnyType_BufferSource y). reflexivity. } 
    destruct E as [[= <- <-]|E].
    { assert (G : Onto m (Ty "MayBeNull" [(Ty "FrozenArrayType" [])]) (enc_MayBeNull enc_FrozenArrayType)) by oo ltac:(first [assumption|auto with onto]). destruct (G x ltac:(lia) W) as [y ->]. clear G. exists (NonAnyType_FrozenArrayType y). reflexivity. } 
    destruct E as [[= <- <-]|E].
    { assert (G : Onto m (Ty "MayBeNull" [(Ty "RecordType" [])]) (enc_MayBeNull enc_RecordType)) by oo ltac:(first [assumption|auto with onto]). destruct (G x ltac:(lia) W) as [y ->]. clear G. exists (NonAnyType_RecordType y). reflexivity. } 
    destruct E as [[= <- <-]|E].
    { assert (G : Onto m (Ty "MayBeNull" [(Ty "Identifier" [])]) (enc_MayBeNull enc_Identifier)) by oo ltac:(first [assumption|auto with onto]). destruct (G x ltac:(lia) W) as [y ->]. clear G. exists (NonAnyType_Identifier y). reflexivity. } 
    destruct E.
  - intros v L W. istruct W fs F. destruct (field_inv _ _ _ _ F) as (v0 & l0 & -> & W0 & F0). destruct (field_inv _ _ _ _ F0) as (v1 & l1 & -> & W1 & F1). apply nil_inv in F1. subst. msize'. apply on_term in W0; [|vm_compute; reflexivity]. subst v0. assert (G : Onto m (Ty "Generics" [(Ty "Box" [(Ty "Type" [])])]) (enc_Generics (enc_Box enc_Type))) by oo ltac:(first [assumption|auto with onto]). destruct (G v1 ltac:(lia) W1) as [x1 ->]. clear G. exists (mkSequenceType x1). reflexivity.
  - intros v L W. istruct W fs F. destruct (field_inv _ _ _ _ F) as (v0 & l0 & -> & W0 & F0). destruct (field_inv _ _ _ _ F0) as (v1 & l1 & -> & W1 & F1). apply nil_inv in F1. subst. msize'. apply on_term in W0; [|vm_compute; reflexivity]. subst v0. assert (G : Onto m (Ty "Generics" [(Ty "Box" [(Ty "Type" [])])]) (enc_Generics (enc_Box enc_Type))) by oo ltac:(first [assumption|auto with onto]). destruct (G v1 ltac:(lia) W1) as [x1 ->]. clear G. exists (mkFrozenArrayType x1). reflexivity.
  - intros v L W. istruct W fs F. destruct (field_inv _ _ _ _ F) as (v0 & l0 & -> & W0 & F0). destruct (field_inv _ _ _ _ F0) as (v1 & l1 & -> & W1 & F1). apply nil_inv in F1. subst. msize'. apply on_term in W0; [|vm_compute; reflexivity]. subst v0. assert (G : Onto m (Ty "Generics" [(Ty "Box" [(Ty "ReturnType" [])])]) (enc_Generics (enc_Box enc_ReturnType))) by oo ltac:(first [assumption|auto with onto]). destruct (G v1 ltac:(lia) W1) as [x1 ->]. clear G. exists (mkPromiseType x1). reflexivity.
  - intros v L W. istruct W fs F. destruct (field_inv _ _ _ _ F) as (v0 & l0 & -> & W0 & F0). destruct (field_inv _ _ _ _ F0) as (v1 & l1 & -> & W1 & F1). apply nil_inv in F1. subst. msize'. apply on_term in W0; [|vm_compute; reflexivity]. subst v0. assert (G : Onto m (Ty "Generics" [(TyTuple [(Ty "Box" [(Ty "RecordKeyType" [])]); (Ty "term::Comma" []); (Ty "Box" [(Ty "Type" [])])])]) (enc_Generics (enc_triple (enc_Box enc_RecordKeyType) (vt "term::Comma") (enc_Box enc_Type)))) by oo ltac:(first [assumption|auto with onto]). destruct (G v1 ltac:(lia) W1) as [x1 ->]. clear G. destruct x1 as [a b]. exists (mkRecordType a b). reflexivity.
  - intros v L W. ienum W c t x E. msize'. 
    destruct E as [[= <- <-]|E].
    { apply on_term in W; [|vm_compute; reflexivity]. subst x. exists RecordKeyType_Byte. reflexivity. } 
    destruct E as [[= <- <-]|E].
    { apply on_term in W; [|vm_compute; reflexivity]. subst x. exists RecordKeyType_DOM. reflexivity. } 
    destruct E as [[= <- <-]|E].
    { apply on_term in W; [|vm_compute; reflexivity]. subst x. exists RecordKeyType_USV. reflexivity. } 
    destruct E as [[= <- <-]|E].
    { assert (G : Onto m (Ty "NonAnyType" []) enc_NonAnyType) by oo ltac:(first [assumption|auto with onto]). destruct (G x ltac:(lia) W) as [y ->]. clear G. exists (RecordKeyType_NonAny y). reflexivity. } 
    destruct E.
  - intros v L W. ienum W c t x E. msize'. 
    destruct E as [[= <- <-]|E].
    { assert (G : Onto m (Ty "AttributedNonAnyType" []) enc_AttributedNonAnyType) by oo ltac:(first [assumption|auto with onto]). destruct (G x ltac:(lia) W) as [y ->]. clear G. exists (UnionMemberType_Single y). reflexivity. } 
    destruct E as [[= <- <-]|E].
    { assert (G : Onto m (Ty "MayBeNull" [(Ty "Parenthesized" [(Ty "Punctuated" [(Ty "UnionMemberType" []); (Ty "term::Or" [])])])]) (enc_MayBeNull (enc_Parenthesized (enc_Punctuated (vt "term::Or") enc_UnionMemberType)))) by oo ltac:(first [assumption|auto with onto]). destruct (G x ltac:(lia) W) as [y ->]. clear G. exists (UnionMemberType_Union y). reflexivity. } 
    destruct E.
  - intros v L W. ienum W c t x E. msize'. 
    destruct E as [[= <- <-]|E].
    { apply on_term in W; [|vm_compute; reflexivity]. subst x. exists ReturnType_Undefined. reflexivity. } 
    destruct E as [[= <- <-]|E].
    { assert (G : Onto m (Ty "Type" []) enc_Type) by oo ltac:(first [assumption|auto with onto]). destruct (G x ltac:(lia) W) as [y ->]. clear G. exists (ReturnType_Type y). reflexivity. } 
    destruct E.
  - intros v L W. istruct W fs F. destruct (field_inv _ _ _ _ F) as (v0 & l0 & -> & W0 & F0). destruct (field_inv _ _ _ _ F0) as (v1 & l1 & -> & W1 & F1). apply nil_inv in F1. subst. msize'. assert (G : Onto m (Ty "Option" [(Ty "Bracketed" [(Ty "Punctuated" [(Ty "ExtendedAttribute" []); (Ty "term::Comma" [])])])]) (enc_Option (enc_Bracketed (enc_Punctuated (vt "term::Comma") enc_ExtendedAttribute)))) by oo ltac:(first [assumption|auto with onto]). destruct (G v0 ltac:(lia) W0) as [x0 ->]. clear G. assert (G : Onto m (Ty "Type" []) enc_Type) by oo ltac:(first [assumption|auto with onto]). destruct (G v1 ltac:(lia) W1) as [x1 ->]. clear G. exists (mkAttributedType x0 x1). reflexivity.
  - intros v L W. istruct W fs F. destruct (field_inv _ _ _ _ F) as (v0 & l0 & -> & W0 & F0). destruct (field_inv _ _ _ _ F0) as (v1 & l1 & -> & W1 & F1). apply nil_inv in F1. subst. msize'. assert (G : Onto m (Ty "Option" [(Ty "Bracketed" [(Ty "Punctuated" [(Ty "ExtendedAttribute" []); (Ty "term::Comma" [])])])]) (enc_Option (enc_Bracketed (enc_Punctuated (vt "term::Comma") enc_ExtendedAttribute)))) by oo ltac:(first [assumption|auto with onto]). destruct (G v0 ltac:(lia) W0) as [x0 ->]. clear G. assert (G : Onto m (Ty "NonAnyType" []) enc_NonAnyType) by oo ltac:(first [assumption|auto with onto]). destruct (G v1 ltac:(lia) W1) as [x1 ->]. clear G. exists (mkAttributedNonAnyType x0 x1). reflexivity.
  - intros v L W. ienum W c t x E. msize'. 
    destruct E as [[= <- <-]|E].
    { assert (G : Onto m (Ty "ExtendedAttributeArgList" []) enc_ExtendedAttributeArgList) by oo ltac:(first [assumption|auto with onto]). destruct (G x ltac:(lia) W) as [y ->]. clear G. exists (ExtendedAttribute_ArgList y). reflexivity. } 
    destruct E as [[= <- <-]|E].
    { assert (G : Onto m (Ty "ExtendedAttributeNamedArgList" []) enc_ExtendedAttributeNamedArgList) by oo ltac:(first [assumption|auto with onto]). destruct (G x ltac:(lia) W) as [y ->]. clear G. exists (ExtendedAttribute_NamedArgList y). reflexivity. } 
    destruct E as [[= <- <-]|E].
    { assert (G : Onto m (Ty "ExtendedAttributeIdentList" []) enc_ExtendedAttributeIdentList) by oo ltac:(first [assumption|auto with onto]). destruct (G x ltac:(lia) W) as [y ->]. clear G. exists (ExtendedAttribute_IdentList y). reflexivity. } 
    destruct E as [[= <- <-]|E].
    { assert (G : Onto m (Ty "ExtendedAttributeIdent" []) enc_ExtendedAttributeIdent) by oo ltac:(first [assumption|auto with onto]). destruct (G x ltac:(lia) W) as [y ->]. clear G. exists (ExtendedAttribute_Ident y). reflexivity. } 
    destruct E as [[= <- <-]|E].
    { assert (G : Onto m (Ty "ExtendedAttributeWildCard" []) enc_ExtendedAttributeWildCard) by oo ltac:(first [assumption|auto with onto]). destruct (G x ltac:(lia) W) as [y ->]. clear G. exists (ExtendedAttribute_Wildcard y). reflexivity. } 
    destruct E as [[= <- <-]|E].
    { assert (G : Onto m (Ty "ExtendedAttributeNoArgs" []) enc_ExtendedAttributeNoArgs) by oo ltac:(first [assumption|auto with onto]). destruct (G x ltac:(lia) W) as [y ->]. clear G. exists (ExtendedAttribute_NoArgs y). reflexivity. } 
    destruct E.
  - intros v L W. istruct W fs F. destruct (field_inv _ _ _ _ F) as (v0 & l0 & -> & W0 & F0). destruct (field_inv _ _ _ _ F0) as (v1 & l1 & -> & W1 & F1). apply nil_inv in F1. subst. msize'. assert (G : Onto m (Ty "Identifier" []) enc_Identifier) by oo ltac:(first [assumption|auto with onto]). destruct (G v0 ltac:(lia) W0) as [x0 ->]. clear G. assert (G : Onto m (Ty "Parenthesized" [(Ty "Punctuated" [(Ty "Argument" []); (Ty "term::Comma" [])])]) (enc_Parenthesized (enc_Punctuated (vt "term::Comma") enc_Argument))) by oo ltac:(first [assumption|auto with onto]). destruct (G v1 ltac:(lia) W1) as [x1 ->]. clear G. exists (mkExtendedAttributeArgList x0 x1). reflexivity.
  - intros v L W. istruct W fs F. destruct (field_inv _ _ _ _ F) as (v0 & l0 & -> & W0 & F0). destruct (field_inv _ _ _ _ F0) as (v1 & l1 & -> & W1 & F1). destruct (field_inv _ _ _ _ F1) as (v2 & l2 & -> & W2 & F2). destruct (field_inv _ _ _ _ F2) as (v3 & l3 & -> & W3 & F3). apply nil_inv in F3. subst. msize'. assert (G : Onto m (Ty "Identifier" []) enc_Identifier) by oo ltac:(first [assumption|auto with onto]). destruct (G v0 ltac:(lia) W0) as [x0 ->]. clear G. apply on_term in W1; [|vm_compute; reflexivity]. subst v1. assert (G : Onto m (Ty "Identifier" []) enc_Identifier) by oo ltac:(first [assumption|auto with onto]). destruct (G v2 ltac:(lia) W2) as [x2 ->]. clear G. assert (G : Onto m (Ty "Parenthesized" [(Ty "Punctuated" [(Ty "Argument" []); (Ty "term::Comma" [])])]) (enc_Parenthesized (enc_Punctuated (vt "term::Comma") enc_Argument))) by oo ltac:(first [assumption|auto with onto]). destruct (G v3 ltac:(lia) W3) as [x3 ->]. clear G. exists (mkExtendedAttributeNamedArgList x0 x2 x3). reflexivity.
  - intros v L W. ienum W c t x E. msize'. 
    destruct E as [[= <- <-]|E].
    { assert (G : Onto m (Ty "SingleArgument" []) enc_SingleArgument) by oo ltac:(first [assumption|auto with onto]). destruct (G x ltac:(lia) W) as [y ->]. clear G. exists (Argument_Single y). reflexivity. } 
    destruct E as [[= <- <-]|E].
    { assert (G : Onto m (Ty "VariadicArgument" []) enc_VariadicArgument) by oo ltac:(first [assumption|auto with onto]). destruct (G x ltac:(lia) W) as [y ->]. clear G. exists (Argument_Variadic y). reflexivity. } 
    destruct E.
  - intros v L W. istruct W fs F. destruct (field_inv _ _ _ _ F) as (v0 & l0 & -> & W0 & F0). destruct (field_inv _ _ _ _ F0) as (v1 & l1 & -> & W1 & F1). destruct (field_inv _ _ _ _ F1) as (v2 & l2 & -> & W2 & F2). destruct (field_inv _ _ _ _ F2) as (v3 & l3 & -> & W3 & F3). destruct (field_inv _ _ _ _ F3) as (v4 & l4 & -> & W4 & F4). apply nil_inv in F4. subst. msize'. assert (G : Onto m (Ty "Option" [(Ty "Bracketed" [(Ty "Punctuated" [(Ty "ExtendedAttribute" []); (Ty "term::Comma" [])])])]) (enc_Option (enc_Bracketed (enc_Punctuated (vt "term::Comma") enc_ExtendedAttribute)))) by oo ltac:(first [assumption|auto with onto]). destruct (G v0 ltac:(lia) W0) as [x0 ->]. clear G. assert (G : Onto m (Ty "Option" [(Ty "term::Optional" [])]) (enc_Option (vu "term::Optional"))) by oo ltac:(first [assumption|auto with onto]). destruct (G v1 ltac:(lia) W1) as [x1 ->]. clear G. assert (G : Onto m (Ty "AttributedType" []) enc_AttributedType) by oo ltac:(first [assumption|auto with onto]). destruct (G v2 ltac:(lia) W2) as [x2 ->]. clear G. assert (G : Onto m (Ty "Identifier" []) enc_Identifier) by oo ltac:(first [assumption|auto with onto]). destruct (G v3 ltac:(lia) W3) as [x3 ->]. clear G. assert (G : Onto m (Ty "Option" [(Ty "Default" [])]) (enc_Option enc_Default)) by oo ltac:(first [assumption|auto with onto]). destruct (G v4 ltac:(lia) W4) as [x4 ->]. clear G. exists (mkSingleArgument x0 x1 x2 x3 x4). reflexivity.
  - intros v L W. istruct W fs F. destruct (field_inv _ _ _ _ F) as (v0 & l0 & -> & W0 & F0). destruct (field_inv _ _ _ _ F0) as (v1 & l1 & -> & W1 & F1). destruct (field_inv _ _ _ _ F1) as (v2 & l2 & -> & W2 & F2). destruct (field_inv _ _ _ _ F2) as (v3 & l3 & -> & W3 & F3). apply nil_inv in F3. subst. msize'. assert (G : Onto m (Ty "Option" [(Ty "Bracketed" [(Ty "Punctuated" [(Ty "ExtendedAttribute" []); (Ty "term::Comma" [])])])]) (enc_Option (enc_Bracketed (enc_Punctuated (vt "term::Comma") enc_ExtendedAttribute)))) by oo ltac:(first [assumption|auto with onto]). destruct (G v0 ltac:(lia) W0) as [x0 ->]. clear G. assert (G : Onto m (Ty "Type" []) enc_Type) by oo ltac:(first [assumption|auto with onto]). destruct (G v1 ltac:(lia) W1) as [x1 ->]. clear G. apply on_term in W2; [|vm_compute; reflexivity]. subst v2. assert (G : Onto m (Ty "Identifier" []) enc_Identifier) by oo ltac:(first [assumption|auto with onto]). destruct (G v3 ltac:(lia) W3) as [x3 ->]. clear G. exists (mkVariadicArgument x0 x1 x3). reflexivity.
Qed.
Lemma onto_Type n : Onto n (Ty "Type" []) enc_Type.
Proof. destruct (onto_types n) as (H0 & H1 & H2 & H3 & H4 & H5 & H6 & H7 & H8 & H9 & H10 & H11 & H12 & H13 & H14 & H15 & H16 & H17). exact H0. Qed.
Lemma onto_SingleType n : Onto n (Ty "SingleType" []) enc_SingleType.
Proof. destruct (onto_types n) as (H0 & H1 & H2 & H3 & H4 & H5 & H6 & H7 & H8 & H9 & H10 & H11 & H12 & H13 & H14 & H15 & H16 & H17). exact H1. Qed.
Lemma onto_NonAnyType n : Onto n (Ty "NonAnyType" []) enc_NonAnyType.
Proof. destruct (onto_types n) as (H0 & H1 & H2 & H3 & H4 & H5 & H6 & H7 & H8 & H9 & H10 & H11 & H12 & H13 & H14 & H15 & H16 & H17). exact H2. Qed.
Lemma onto_SequenceType n : Onto n (Ty "SequenceType" []) enc_SequenceType.
Proof. destruct (onto_types n) as (H0 & H1 & H2 & H3 & H4 & H5 & H6 & H7 & H8 & H9 & H10 & H11 & H12 & H13 & H14 & H15 & H16 & H17). exact H3. Qed.
Lemma onto_FrozenArrayType n : Onto n (Ty "FrozenArrayType" []) enc_FrozenArrayType.
Proof. destruct (onto_types n) as (H0 & H1 & H2 & H3 & H4 & H5 & H6 & H7 & H8 & H9 & H10 & H11 & H12 & H13 & H14 & H15 & H16 & H17). exact H4. Qed.
Lemma onto_PromiseType n : Onto n (Ty "PromiseType" []) enc_PromiseType.
Proof. destruct (onto_types n) as (H0 & H1 & H2 & H3 & H4 & H5 & H6 & H7 & H8 & H9 & H10 & H11 & H12 & H13 & H14 & H15 & H16 & H17). exact H5. Qed.
Lemma onto_RecordType n : Onto n (Ty "RecordType" []) enc_RecordType.
Proof. destruct (onto_types n) as (H0 & H1 & H2 & H3 & H4 & H5 & H6 & H7 & H8 & H9 & H10 & H11 & H12 & H13 & H14 & H15 & H16 & H17). exact H6. Qed.
Lemma onto_RecordKeyType n : Onto n (Ty "RecordKeyType" []) enc_RecordKeyType.
Proof. destruct (onto_types n) as (H0 & H1 & H2 & H3 & H4 & H5 & H6 & H7 & H8 & H9 & H10 & H11 & H12 & H13 & H14 & H15 & H16 & H17). exact H7. Qed.
Lemma onto_UnionMemberType n : Onto n (Ty "UnionMemberType" []) enc_UnionMemberType.
Proof. destruct (onto_types n) as (H0 & H1 & H2 & H3 & H4 & H5 & H6 & H7 & H8 & H9 & H10 & H11 & H12 & H13 & H14 & H15 & H16 & H17). exact H8. Qed.
Lemma onto_ReturnType n : Onto n (Ty "ReturnType" []) enc_ReturnType.
Proof. destruct (onto_types n) as (H0 & H1 & H2 & H3 & H4 & H5 & H6 & H7 & H8 & H9 & H10 & H11 & H12 & H13 & H14 & H15 & H16 & H17). exact H9. Qed.
Lemma onto_AttributedType n : Onto n (Ty "AttributedType" []) enc_AttributedType.
Proof. destruct (onto_types n) as (H0 & H1 & H2 & H3 & H4 & H5 & H6 & H7 & H8 & H9 & H10 & H11 & H12 & H13 & H14 & H15 & H16 & H17). exact H10. Qed.
Lemma onto_AttributedNonAnyType n : Onto n (Ty "AttributedNonAnyType" []) enc_AttributedNonAnyType.
Proof. destruct (onto_types n) as (H0 & H1 & H2 & H3 & H4 & H5 & H6 & H7 & H8 & H9 & H10 & H11 & H12 & H13 & H14 & H15 & H16 & H17). exact H11. Qed.
Lemma onto_ExtendedAttribute n : Onto n (Ty "ExtendedAttribute" []) enc_ExtendedAttribute.
Proof. destruct (onto_types n) as (H0 & H1 & H2 & H3 & H4 & H5 & H6 & H7 & H8 & H9 & H10 & H11 & H12 & H13 & H14 & H15 & H16 & H17). exact H12. Qed.
Lemma onto_ExtendedAttributeArgList n : Onto n (Ty "ExtendedAttributeArgList" []) enc_ExtendedAttributeArgList.
Proof. destruct (onto_types n) as (H0 & H1 & H2 & H3 & H4 & H5 & H6 & H7 & H8 & H9 & H10 & H11 & H12 & H13 & H14 & H15 & H16 & H17). exact H13. Qed.
Lemma onto_ExtendedAttributeNamedArgList n : Onto n (Ty "ExtendedAttributeNamedArgList" []) enc_ExtendedAttributeNamedArgList.
Proof. destruct (onto_types n) as (H0 & H1 & H2 & H3 & H4 & H5 & H6 & H7 & H8 & H9 & H10 & H11 & H12 & H13 & H14 & H15 & H16 & H17). exact H14. Qed.
Lemma onto_Argument n : Onto n (Ty "Argument" []) enc_Argument.
Proof. destruct (onto_types n) as (H0 & H1 & H2 & H3 & H4 & H5 & H6 & H7 & H8 & H9 & H10 & H11 & H12 & H13 & H14 & H15 & H16 & H17). exact H15. Qed.
Lemma onto_SingleArgument n : Onto n (Ty "SingleArgument" []) enc_SingleArgument.
Proof. destruct (onto_types n) as (H0 & H1 & H2 & H3 & H4 & H5 & H6 & H7 & H8 & H9 & H10 & H11 & H12 & H13 & H14 & H15 & H16 & H17). exact H16. Qed.
Lemma onto_VariadicArgument n : Onto n (Ty "VariadicArgument" []) enc_VariadicArgument.
Proof. destruct (onto_types n) as (H0 & H1 & H2 & H3 & H4 & H5 & H6 & H7 & H8 & H9 & H10 & H11 & H12 & H13 & H14 & H15 & H16 & H17). exact H17. Qed.
#[export] Hint Resolve onto_Type onto_SingleType onto_NonAnyType onto_SequenceType onto_FrozenArrayType onto_PromiseType onto_RecordType onto_RecordKeyType onto_UnionMemberType onto_ReturnType onto_AttributedType onto_AttributedNonAnyType onto_ExtendedAttribute onto_ExtendedAttributeArgList onto_ExtendedAttributeNamedArgList onto_Argument onto_SingleArgument onto_VariadicArgument : onto.
Lemma onto_DictionaryMember n : Onto n (Ty "DictionaryMember" []) enc_DictionaryMember.
Proof.
  intros v L W. istruct W fs F. destruct (field_inv _ _ _ _ F) as (v0 & l0 & -> & W0 & F0). destruct (field_inv _ _ _ _ F0) as (v1 & l1 & -> & W1 & F1). destruct (field_inv _ _ _ _ F1) as (v2 & l2 & -> & W2 & F2). destruct (field_inv _ _ _ _ F2) as (v3 & l3 & -> & W3 & F3). destruct (field_inv _ _ _ _ F3) as (v4 & l4 & -> & W4 & F4). destruct (field_inv _ _ _ _ F4) as (v5 & l5 & -> & W5 & F5). apply nil_inv in F5. subst. msize. assert (G : Onto m (Ty "Option" [(Ty "Bracketed" [(Ty "Punctuated" [(Ty "ExtendedAttribute" []); (Ty "term::Comma" [])])])]) (enc_Option (enc_Bracketed (enc_Punctuated (vt "term::Comma") enc_ExtendedAttribute)))) by oo ltac:(auto with onto). destruct (G v0 ltac:(lia) W0) as [x0 ->]. clear G. assert (G : Onto m (Ty "Option" [(Ty "term::Required" [])]) (enc_Option (vu "term::Required"))) by oo ltac:(auto with onto). destruct (G v1 ltac:(lia) W1) as [x1 ->]. clear G. assert (G : Onto m (Ty "Type" []) enc_Type) by oo ltac:(auto with onto). destruct (G v2 ltac:(lia) W2) as [x2 ->]. clear G. assert (G : Onto m (Ty "Identifier" []) enc_Identifier) by oo ltac:(auto with onto). destruct (G v3 ltac:(lia) W3) as [x3 ->]. clear G. assert (G : Onto m (Ty "Option" [(Ty "Default" [])]) (enc_Option enc_Default)) by oo ltac:(auto with onto). destruct (G v4 ltac:(lia) W4) as [x4 ->]. clear G. apply on_term in W5; [|vm_compute; reflexivity]. subst v5. exists (mkDictionaryMember x0 x1 x2 x3 x4). reflexivity.
Qed.
#[export] Hint Resolve onto_DictionaryMember : onto.
Lemma onto_Inheritance n : Onto n (Ty "Inheritance" []) enc_Inheritance.
Proof.
  intros v L W. istruct W fs F. destruct (field_inv _ _ _ _ F) as (v0 & l0 & -> & W0 & F0). destruct (field_inv _ _ _ _ F0) as (v1 & l1 & -> & W1 & F1). apply nil_inv in F1. subst. msize. apply on_term in W0; [|vm_compute; reflexivity]. subst v0. assert (G : Onto m (Ty "Identifier" []) enc_Identifier) by oo ltac:(auto with onto). destruct (G v1 ltac:(lia) W1) as [x1 ->]. clear G. exists (mkInheritance x1). reflexivity.
Qed.
#[export] Hint Resolve onto_Inheritance : onto.
Lemma onto_ConstType n : Onto n (Ty "ConstType" []) enc_ConstType.
Proof.
  intros v L W. ienum W c t x E. msize. 
    destruct E as [[= <- <-]|E].
    { assert (G : Onto m (Ty "MayBeNull" [(Ty "IntegerType" [])]) (enc_MayBeNull enc_IntegerType)) by oo ltac:(auto with onto). destruct (G x ltac:(lia) W) as [y ->]. clear G. exists (ConstType_Integer y). reflexivity. } 
    destruct E as [[= <- <-]|E].
    { assert (G : Onto m (Ty "MayBeNull" [(Ty "FloatingPointType" [])]) (enc_MayBeNull enc_FloatingPointType)) by oo ltac:(auto with onto). destruct (G x ltac:(lia) W) as [y ->]. clear G. exists (ConstType_FloatingPoint y). reflexivity. } 
    destruct E as [[= <- <-]|E].
    { assert (G : Onto m (Ty "MayBeNull" [(Ty "term::Boolean" [])]) (enc_MayBeNull (vu "term::Boolean"))) by oo ltac:(auto with onto). destruct (G x ltac:(lia) W) as [y ->]. clear G. exists (ConstType_Boolean y). reflexivity. } 
    destruct E as [[= <- <-]|E].
    { assert (G : Onto m (Ty "MayBeNull" [(Ty "term::Byte" [])]) (enc_MayBeNull (vu "term::Byte"))) by oo ltac:(auto with onto). destruct (G x ltac:(lia) W) as [y ->]. clear G. exists (ConstType_Byte y). reflexivity. } 
    destruct E as [[= <- <-]|E].
    { assert (G : Onto m (Ty "MayBeNull" [(Ty "term::Octet" [])]) (enc_MayBeNull (vu "term::Octet"))) by oo ltac:(auto with onto). destruct (G x ltac:(lia) W) as [y ->]. clear G. exists (ConstType_Octet y). reflexivity. } 
    destruct E as [[= <- <-]|E].
    { assert (G : Onto m (Ty "MayBeNull" [(Ty "Identifier" [])]) (enc_MayBeNull enc_Identifier)) by oo ltac:(auto with onto). destruct (G x ltac:(lia) W) as [y ->]. clear G. exists (ConstType_Identifier y). reflexivity. } 
    destruct E.
Qed.
#[export] Hint Resolve onto_ConstType : onto.
Lemma onto_ConstValue n : Onto n (Ty "ConstValue" []) enc_ConstValue.
Proof.
  intros v L W. ienum W c t x E. msize. 
    destruct E as [[= <- <-]|E].
    { assert (G : Onto m (Ty "BooleanLit" []) enc_BooleanLit) by oo ltac:(auto with onto). destruct (G x ltac:(lia) W) as [y ->]. clear G. exists (ConstValue_Boolean y). reflexivity. } 
    destruct E as [[= <- <-]|E].
    { assert (G : Onto m (Ty "FloatLit" []) enc_FloatLit) by oo ltac:(auto with onto). destruct (G x ltac:(lia) W) as [y ->]. clear G. exists (ConstValue_Float y). reflexivity. } 
    destruct E as [[= <- <-]|E].
    { assert (G : Onto m (Ty "IntegerLit" []) enc_IntegerLit) by oo ltac:(auto with onto). destruct (G x ltac:(lia) W) as [y ->]. clear G. exists (ConstValue_Integer y). reflexivity. } 
    destruct E as [[= <- <-]|E].
    { apply on_term in W; [|vm_compute; reflexivity]. subst x. exists ConstValue_Null. reflexivity. } 
    destruct E.
Qed.
#[export] Hint Resolve onto_ConstValue : onto.
Lemma onto_ConstMember n : Onto n (Ty "ConstMember" []) enc_ConstMember.
Proof.
  intros v L W. istruct W fs F. destruct (field_inv _ _ _ _ F) as (v0 & l0 & -> & W0 & F0). destruct (field_inv _ _ _ _ F0) as (v1 & l1 & -> & W1 & F1). destruct (field_inv _ _ _ _ F1) as (v2 & l2 & -> & W2 & F2). destruct (field_inv _ _ _ _ F2) as (v3 & l3 & -> & W3 & F3). destruct (field_inv _ _ _ _ F3) as (v4 & l4 & -> & W4 & F4). destruct (field_inv _ _ _ _ F4) as (v5 & l5 & -> & W5 & F5). destruct (field_inv _ _ _ _ F5) as (v6 & l6 & -> & W6 & F6). apply nil_inv in F6. subst. msize. assert (G : Onto m (Ty "Option" [(Ty "Bracketed" [(Ty "Punctuated" [(Ty "ExtendedAttribute" []); (Ty "term::Comma" [])])])]) (enc_Option (enc_Bracketed (enc_Punctuated (vt "term::Comma") enc_ExtendedAttribute)))) by oo ltac:(auto with onto). destruct (G v0 ltac:(lia) W0) as [x0 ->]. clear G. apply on_term in W1; [|vm_compute; reflexivity]. subst v1. assert (G : Onto m (Ty "ConstType" []) enc_ConstType) by oo ltac:(auto with onto). destruct (G v2 ltac:(lia) W2) as [x2 ->]. clear G. assert (G : Onto m (Ty "Identifier" []) enc_Identifier) by oo ltac:(auto with onto). destruct (G v3 ltac:(lia) W3) as [x3 ->]. clear G. apply on_term in W4; [|vm_compute; reflexivity]. subst v4. assert (G : Onto m (Ty "ConstValue" []) enc_ConstValue) by oo ltac:(auto with onto). destruct (G v5 ltac:(lia) W5) as [x5 ->]. clear G. apply on_term in W6; [|vm_compute; reflexivity]. subst v6. exists (mkConstMember x0 x2 x3 x5). reflexivity.
Qed.
#[export] Hint Resolve onto_ConstMember : onto.
Lemma onto_StringifierOrInheritOrStatic n : Onto n (Ty "StringifierOrInheritOrStatic" []) enc_StringifierOrInheritOrStatic.
Proof.
  intros v L W. ienum W c t x E. msize. 
    destruct E as [[= <- <-]|E].
    { apply on_term in W; [|vm_compute; reflexivity]. subst x. exists SIS_Stringifier. reflexivity. } 
    destruct E as [[= <- <-]|E].
    { apply on_term in W; [|vm_compute; reflexivity]. subst x. exists SIS_Inherit. reflexivity. } 
    destruct E as [[= <- <-]|E].
    { apply on_term in W; [|vm_compute; reflexivity]. subst x. exists SIS_Static. reflexivity. } 
    destruct E.
Qed.
#[export] Hint Resolve onto_StringifierOrInheritOrStatic : onto.
Lemma onto_AttributeInterfaceMember n : Onto n (Ty "AttributeInterfaceMember" []) enc_AttributeInterfaceMember.
Proof.
  intros v L W. istruct W fs F. destruct (field_inv _ _ _ _ F) as (v0 & l0 & -> & W0 & F0). destruct (field_inv _ _ _ _ F0) as (v1 & l1 & -> & W1 & F1). destruct (field_inv _ _ _ _ F1) as (v2 & l2 & -> & W2 & F2). destruct (field_inv _ _ _ _ F2) as (v3 & l3 & -> & W3 & F3). destruct (field_inv _ _ _ _ F3) as (v4 & l4 & -> & W4 & F4). destruct (field_inv _ _ _ _ F4) as (v5 & l5 & -> & W5 & F5). destruct (field_inv _ _ _ _ F5) as (v6 & l6 & -> & W6 & F6). apply nil_inv in F6. subst. msize. assert (G : Onto m (Ty "Option" [(Ty "Bracketed" [(Ty "Punctuated" [(Ty "ExtendedAttribute" []); (Ty "term::Comma" [])])])]) (enc_Option (enc_Bracketed (enc_Punctuated (vt "term::Comma") enc_ExtendedAttribute)))) by oo ltac:(auto with onto). destruct (G v0 ltac:(lia) W0) as [x0 ->]. clear G. assert (G : Onto m (Ty "Option" [(Ty "StringifierOrInheritOrStatic" [])]) (enc_Option enc_StringifierOrInheritOrStatic)) by oo ltac:(auto with onto). destruct (G v1 ltac:(lia) W1) as [x1 ->]. clear G. assert (G : Onto m (Ty "Option" [(Ty "term::ReadOnly" [])]) (enc_Option (vu "term::ReadOnly"))) by oo ltac:(auto with onto). destruct (G v2 ltac:(lia) W2) as [x2 ->]. clear G. apply on_term in W3; [|vm_compute; reflexivity]. subst v3. assert (G : Onto m (Ty "AttributedType" []) enc_AttributedType) by oo ltac:(auto with onto). destruct (G v4 ltac:(lia) W4) as [x4 ->]. clear G. assert (G : Onto m (Ty "Identifier" []) enc_Identifier) by oo ltac:(auto with onto). destruct (G v5 ltac:(lia) W5) as [x5 ->]. clear G. apply on_term in W6; [|vm_compute; reflexivity]. subst v6. exists (mkAttributeInterfaceMember x0 x1 x2 x4 x5). reflexivity.
Qed.
#[export] Hint Resolve onto_AttributeInterfaceMember : onto.
Lemma onto_ConstructorInterfaceMember n : Onto n (Ty "ConstructorInterfaceMember" []) enc_ConstructorInterfaceMember.
Proof.
  intros v L W. istruct W fs F. destruct (field_inv _ _ _ _ F) as (v0 & l0 & -> & W0 & F0). destruct (field_inv _ _ _ _ F0) as (v1 & l1 & -> & W1 & F1). destruct (field_inv _ _ _ _ F1) as (v2 & l2 & -> & W2 & F2). destruct (field_inv _ _ _ _ F2) as (v3 & l3 & -> & W3 & F3). apply nil_inv in F3. subst. msize. assert (G : Onto m (Ty "Option" [(Ty "Bracketed" [(Ty "Punctuated" [(Ty "ExtendedAttribute" []); (Ty "term::Comma" [])])])]) (enc_Option (enc_Bracketed (enc_Punctuated (vt "term::Comma") enc_ExtendedAttribute)))) by oo ltac:(auto with onto). destruct (G v0 ltac:(lia) W0) as [x0 ->]. clear G. apply on_term in W1; [|vm_compute; reflexivity]. subst v1. assert (G : Onto m (Ty "Parenthesized" [(Ty "Punctuated" [(Ty "Argument" []); (Ty "term::Comma" [])])]) (enc_Parenthesized (enc_Punctuated (vt "term::Comma") enc_Argument))) by oo ltac:(auto with onto). destruct (G v2 ltac:(lia) W2) as [x2 ->]. clear G. apply on_term in W3; [|vm_compute; reflexivity]. subst v3. exists (mkConstructorInterfaceMember x0 x2). reflexivity.
Qed.
#[export] Hint Resolve onto_ConstructorInterfaceMember : onto.
Lemma onto_StringifierOrStatic n : Onto n (Ty "StringifierOrStatic" []) enc_StringifierOrStatic.
Proof.
  intros v L W. ienum W c t x E. msize. 
    destruct E as [[= <- <-]|E].
    { apply on_term in W; [|vm_compute; reflexivity]. subst x. exists SS_Stringifier. reflexivity. } 
    destruct E as [[= <- <-]|E].
    { apply on_term in W; [|vm_compute; reflexivity]. subst x. exists SS_Static. reflexivity. } 
    destruct E.
Qed.
#[export] Hint Resolve onto_StringifierOrStatic : onto.
Lemma onto_Special n : Onto n (Ty "Special" []) enc_Special.
Proof.
  intros v L W. ienum W c t x E. msize. 
    destruct E as [[= <- <-]|E].
    { apply on_term in W; [|vm_compute; reflexivity]. subst x. exists Special_Getter. reflexivity. } 
    destruct E as [[= <- <-]|E].
    { apply on_term in W; [|vm_compute; reflexivity]. subst x. exists Special_Setter. reflexivity. } 
    destruct E as [[= <- <-]|E].
    { apply on_term in W; [|vm_compute; reflexivity]. subst x. exists Special_Deleter. reflexivity. } 
    destruct E as [[= <- <-]|E].
    { apply on_term in W; [|vm_compute; reflexivity]. subst x. exists Special_LegacyCaller. reflexivity. } 
    destruct E.
Qed.
#[export] Hint Resolve onto_Special : onto.
Lemma onto_OperationInterfaceMember n : Onto n (Ty "OperationInterfaceMember" []) enc_OperationInterfaceMember.
Proof.
  intros v L W. istruct W fs F. destruct (field_inv _ _ _ _ F) as (v0 & l0 & -> & W0 & F0). destruct (field_inv _ _ _ _ F0) as (v1 & l1 & -> & W1 & F1). destruct (field_inv _ _ _ _ F1) as (v2 & l2 & -> & W2 & F2). destruct (field_inv _ _ _ _ F2) as (v3 & l3 & -> & W3 & F3). destruct (field_inv _ _ _ _ F3) as (v4 & l4 & -> & W4 & F4). destruct (field_inv _ _ _ _ F4) as (v5 & l5 & -> & W5 & F5). destruct (field_inv _ _ _ _ F5) as (v6 & l6 & -> & W6 & F6). apply nil_inv in F6. subst. msize. assert (G : Onto m (Ty "Option" [(Ty "Bracketed" [(Ty "Punctuated" [(Ty "ExtendedAttribute" []); (Ty "term::Comma" [])])])]) (enc_Option (enc_Bracketed (enc_Punctuated (vt "term::Comma") enc_ExtendedAttribute)))) by oo ltac:(auto with onto). destruct (G v0 ltac:(lia) W0) as [x0 ->]. clear G. assert (G : Onto m (Ty "Option" [(Ty "StringifierOrStatic" [])]) (enc_Option enc_StringifierOrStatic)) by oo ltac:(auto with onto). destruct (G v1 ltac:(lia) W1) as [x1 ->]. clear G. assert (G : Onto m (Ty "Option" [(Ty "Special" [])]) (enc_Option enc_Special)) by oo ltac:(auto with onto). destruct (G v2 ltac:(lia) W2) as [x2 ->]. clear G. assert (G : Onto m (Ty "ReturnType" []) enc_ReturnType) by oo ltac:(auto with onto). destruct (G v3 ltac:(lia) W3) as [x3 ->]. clear G. assert (G : Onto m (Ty "Option" [(Ty "Identifier" [])]) (enc_Option enc_Identifier)) by oo ltac:(auto with onto). destruct (G v4 ltac:(lia) W4) as [x4 ->]. clear G. assert (G : Onto m (Ty "Parenthesized" [(Ty "Punctuated" [(Ty "Argument" []); (Ty "term::Comma" [])])]) (enc_Parenthesized (enc_Punctuated (vt "term::Comma") enc_Argument))) by oo ltac:(auto with onto). destruct (G v5 ltac:(lia) W5) as [x5 ->]. clear G. apply on_term in W6; [|vm_compute; reflexivity]. subst v6. exists (mkOperationInterfaceMember x0 x1 x2 x3 x4 x5). reflexivity.
Qed.
#[export] Hint Resolve onto_OperationInterfaceMember : onto.
Lemma onto_SingleTypedIterable n : Onto n (Ty "SingleTypedIterable" []) enc_SingleTypedIterable.
Proof.
  intros v L W. istruct W fs F. destruct (field_inv _ _ _ _ F) as (v0 & l0 & -> & W0 & F0). destruct (field_inv _ _ _ _ F0) as (v1 & l1 & -> & W1 & F1). destruct (field_inv _ _ _ _ F1) as (v2 & l2 & -> & W2 & F2). destruct (field_inv _ _ _ _ F2) as (v3 & l3 & -> & W3 & F3). apply nil_inv in F3. subst. msize. assert (G : Onto m (Ty "Option" [(Ty "Bracketed" [(Ty "Punctuated" [(Ty "ExtendedAttribute" []); (Ty "term::Comma" [])])])]) (enc_Option (enc_Bracketed (enc_Punctuated (vt "term::Comma") enc_ExtendedAttribute)))) by oo ltac:(auto with onto). destruct (G v0 ltac:(lia) W0) as [x0 ->]. clear G. apply on_term in W1; [|vm_compute; reflexivity]. subst v1. assert (G : Onto m (Ty "Generics" [(Ty "AttributedType" [])]) (enc_Generics enc_AttributedType)) by oo ltac:(auto with onto). destruct (G v2 ltac:(lia) W2) as [x2 ->]. clear G. apply on_term in W3; [|vm_compute; reflexivity]. subst v3. exists (mkSingleTypedIterable x0 x2). reflexivity.
Qed.
#[export] Hint Resolve onto_SingleTypedIterable : onto.
Lemma onto_DoubleTypedIterable n : Onto n (Ty "DoubleTypedIterable" []) enc_DoubleTypedIterable.
Proof.
  intros v L W. istruct W fs F. destruct (field_inv _ _ _ _ F) as (v0 & l0 & -> & W0 & F0). destruct (field_inv _ _ _ _ F0) as (v1 & l1 & -> & W1 & F1). destruct (field_inv _ _ _ _ F1) as (v2 & l2 & -> & W2 & F2). destruct (field_inv _ _ _ _ F2) as (v3 & l3 & -> & W3 & F3). apply nil_inv in F3. subst. msize. assert (G : Onto m (Ty "Option" [(Ty "Bracketed" [(Ty "Punctuated" [(Ty "ExtendedAttribute" []); (Ty "term::Comma" [])])])]) (enc_Option (enc_Bracketed (enc_Punctuated (vt "term::Comma") enc_ExtendedAttribute)))) by oo ltac:(auto with onto). destruct (G v0 ltac:(lia) W0) as [x0 ->]. clear G. apply on_term in W1; [|vm_compute; reflexivity]. subst v1. assert (G : Onto m (Ty "Generics" [(TyTuple [(Ty "AttributedType" []); (Ty "term::Comma" []); (Ty "AttributedType" [])])]) (enc_Generics (enc_triple enc_AttributedType (vt "term::Comma") enc_AttributedType))) by oo ltac:(auto with onto). destruct (G v2 ltac:(lia) W2) as [x2 ->]. clear G. apply on_term in W3; [|vm_compute; reflexivity]. subst v3. exists (mkDoubleTypedIterable x0 x2). reflexivity.
Qed.
#[export] Hint Resolve onto_DoubleTypedIterable : onto.
Lemma onto_IterableInterfaceMember n : Onto n (Ty "IterableInterfaceMember" []) enc_IterableInterfaceMember.
Proof.
  intros v L W. ienum W c t x E. msize. 
    destruct E as [[= <- <-]|E].
    { assert (G : Onto m (Ty "SingleTypedIterable" []) enc_SingleTypedIterable) by oo ltac:(auto with onto). destruct (G x ltac:(lia) W) as [y ->]. clear G. exists (IterableInterfaceMember_Single y). reflexivity. } 
    destruct E as [[= <- <-]|E].
    { assert (G : Onto m (Ty "DoubleTypedIterable" []) enc_DoubleTypedIterable) by oo ltac:(auto with onto). destruct (G x ltac:(lia) W) as [y ->]. clear G. exists (IterableInterfaceMember_Double y). reflexivity. } 
    destruct E.
Qed.
#[export] Hint Resolve onto_IterableInterfaceMember : onto.
Lemma onto_SingleTypedAsyncIterable n : Onto n (Ty "SingleTypedAsyncIterable" []) enc_SingleTypedAsyncIterable.
Proof.
  intros v L W. istruct W fs F. destruct (field_inv _ _ _ _ F) as (v0 & l0 & -> & W0 & F0). destruct (field_inv _ _ _ _ F0) as (v1 & l1 & -> & W1 & F1). destruct (field_inv _ _ _ _ F1) as (v2 & l2 & -> & W2 & F2). destruct (field_inv _ _ _ _ F2) as (v3 & l3 & -> & W3 & F3). destruct (field_inv _ _ _ _ F3) as (v4 & l4 & -> & W4 & F4). apply nil_inv in F4. subst. msize. assert (G : Onto m (Ty "Option" [(Ty "Bracketed" [(Ty "Punctuated" [(Ty "ExtendedAttribute" []); (Ty "term::Comma" [])])])]) (enc_Option (enc_Bracketed (enc_Punctuated (vt "term::Comma") enc_ExtendedAttribute)))) by oo ltac:(auto with onto). destruct (G v0 ltac:(lia) W0) as [x0 ->]. clear G. apply on_pair in W1; [|vm_compute; reflexivity|vm_compute; reflexivity]. subst v1. assert (G : Onto m (Ty "Generics" [(Ty "AttributedType" [])]) (enc_Generics enc_AttributedType)) by oo ltac:(auto with onto). destruct (G v2 ltac:(lia) W2) as [x2 ->]. clear G. assert (G : Onto m (Ty "Option" [(Ty "Parenthesized" [(Ty "Punctuated" [(Ty "Argument" []); (Ty "term::Comma" [])])])]) (enc_Option (enc_Parenthesized (enc_Punctuated (vt "term::Comma") enc_Argument)))) by oo ltac:(auto with onto). destruct (G v3 ltac:(lia) W3) as [x3 ->]. clear G. apply on_term in W4; [|vm_compute; reflexivity]. subst v4. exists (mkSingleTypedAsyncIterable x0 x2 x3). reflexivity.
Qed.
#[export] Hint Resolve onto_SingleTypedAsyncIterable : onto.
Lemma onto_DoubleTypedAsyncIterable n : Onto n (Ty "DoubleTypedAsyncIterable" []) enc_DoubleTypedAsyncIterable.
Proof.
  intros v L W. istruct W fs F. destruct (field_inv _ _ _ _ F) as (v0 & l0 & -> & W0 & F0). destruct (field_inv _ _ _ _ F0) as (v1 & l1 & -> & W1 & F1). destruct (field_inv _ _ _ _ F1) as (v2 & l2 & -> & W2 & F2). destruct (field_inv _ _ _ _ F2) as (v3 & l3 & -> & W3 & F3). destruct (field_inv _ _ _ _ F3) as (v4 & l4 & -> & W4 & F4). apply nil_inv in F4. subst. msize. assert (G : Onto m (Ty "Option" [(Ty "Bracketed" [(Ty "Punctuated" [(Ty "ExtendedAttribute" []); (Ty "term::Comma" [])])])]) (enc_Option (enc_Bracketed (enc_Punctuated (vt "term::Comma") enc_ExtendedAttribute)))) by oo ltac:(auto with onto). destruct (G v0 ltac:(lia) W0) as [x0 ->]. clear G. apply on_pair in W1; [|vm_compute; reflexivity|vm_compute; reflexivity]. subst v1. assert (G : Onto m (Ty "Generics" [(TyTuple [(Ty "AttributedType" []); (Ty "term::Comma" []); (Ty "AttributedType" [])])]) (enc_Generics (enc_triple enc_AttributedType (vt "term::Comma") enc_AttributedType))) by oo ltac:(auto with onto). destruct (G v2 ltac:(lia) W2) as [x2 ->]. clear G. assert (G : Onto m (Ty "Option" [(Ty "Parenthesized" [(Ty "Punctuated" [(Ty "Argument" []); (Ty "term::Comma" [])])])]) (enc_Option (enc_Parenthesized (enc_Punctuated (vt "term::Comma") enc_Argument)))) by oo ltac:(auto with onto). destruct (G v3 ltac:(lia) W3) as [x3 ->]. clear G. apply on_term in W4; [|vm_compute; reflexivity]. subst v4. exists (mkDoubleTypedAsyncIterable x0 x2 x3). reflexivity.
Qed.
#[export] Hint Resolve onto_DoubleTypedAsyncIterable : onto.
Lemma onto_AsyncIterableInterfaceMember n : Onto n (Ty "AsyncIterableInterfaceMember" []) enc_AsyncIterableInterfaceMember.
Proof.
  intros v L W. ienum W c t x E. msize. 
    destruct E as [[= <- <-]|E].
    { assert (G : Onto m (Ty "SingleTypedAsyncIterable" []) enc_SingleTypedAsyncIterable) by oo ltac:(auto with onto). destruct (G x ltac:(lia) W) as [y ->]. clear G. exists (AsyncIterableInterfaceMember_Single y). reflexivity. } 
    destruct E as [[= <- <-]|E].
    { assert (G : Onto m (Ty "DoubleTypedAsyncIterable" []) enc_DoubleTypedAsyncIterable) by oo ltac:(auto with onto). destruct (G x ltac:(lia) W) as [y ->]. clear G. exists (AsyncIterableInterfaceMember_Double y). reflexivity. } 
    destruct E.
Qed.
#[export] Hint Resolve onto_AsyncIterableInterfaceMember : onto.
Lemma onto_MaplikeInterfaceMember n : Onto n (Ty "MaplikeInterfaceMember" []) enc_MaplikeInterfaceMember.
Proof.
  intros v L W. istruct W fs F. destruct (field_inv _ _ _ _ F) as (v0 & l0 & -> & W0 & F0). destruct (field_inv _ _ _ _ F0) as (v1 & l1 & -> & W1 & F1). destruct (field_inv _ _ _ _ F1) as (v2 & l2 & -> & W2 & F2). destruct (field_inv _ _ _ _ F2) as (v3 & l3 & -> & W3 & F3). destruct (field_inv _ _ _ _ F3) as (v4 & l4 & -> & W4 & F4). apply nil_inv in F4. subst. msize. assert (G : Onto m (Ty "Option" [(Ty "Bracketed" [(Ty "Punctuated" [(Ty "ExtendedAttribute" []); (Ty "term::Comma" [])])])]) (enc_Option (enc_Bracketed (enc_Punctuated (vt "term::Comma") enc_ExtendedAttribute)))) by oo ltac:(auto with onto). destruct (G v0 ltac:(lia) W0) as [x0 ->]. clear G. assert (G : Onto m (Ty "Option" [(Ty "term::ReadOnly" [])]) (enc_Option (vu "term::ReadOnly"))) by oo ltac:(auto with onto). destruct (G v1 ltac:(lia) W1) as [x1 ->]. clear G. apply on_term in W2; [|vm_compute; reflexivity]. subst v2. assert (G : Onto m (Ty "Generics" [(TyTuple [(Ty "AttributedType" []); (Ty "term::Comma" []); (Ty "AttributedType" [])])]) (enc_Generics (enc_triple enc_AttributedType (vt "term::Comma") enc_AttributedType))) by oo ltac:(auto with onto). destruct (G v3 ltac:(lia) W3) as [x3 ->]. clear G. apply on_term in W4; [|vm_compute; reflexivity]. subst v4. exists (mkMaplikeInterfaceMember x0 x1 x3). reflexivity.
Qed.
#[export] Hint Resolve onto_MaplikeInterfaceMember : onto.
Lemma onto_SetlikeInterfaceMember n : Onto n (Ty "SetlikeInterfaceMember" []) enc_SetlikeInterfaceMember.
Proof.
  intros v L W. istruct W fs F. destruct (field_inv _ _ _ _ F) as (v0 & l0 & -> & W0 & F0). destruct (field_inv _ _ _ _ F0) as (v1 & l1 & -> & W1 & F1). destruct (field_inv _ _ _ _ F1) as (v2 & l2 & -> & W2 & F2). destruct (field_inv _ _ _ _ F2) as (v3 & l3 & -> & W3 & F3). destruct (field_inv _ _ _ _ F3) as (v4 & l4 & -> & W4 & F4). apply nil_inv in F4. subst. msize. assert (G : Onto m (Ty "Option" [(Ty "Bracketed" [(Ty "Punctuated" [(Ty "ExtendedAttribute" []); (Ty "term::Comma" [])])])]) (enc_Option (enc_Bracketed (enc_Punctuated (vt "term::Comma") enc_ExtendedAttribute)))) by oo ltac:(auto with onto). destruct (G v0 ltac:(lia) W0) as [x0 ->]. clear G. assert (G : Onto m (Ty "Option" [(Ty "term::ReadOnly" [])]) (enc_Option (vu "term::ReadOnly"))) by oo ltac:(auto with onto). destruct (G v1 ltac:(lia) W1) as [x1 ->]. clear G. apply on_term in W2; [|vm_compute; reflexivity]. subst v2. assert (G : Onto m (Ty "Generics" [(Ty "AttributedType" [])]) (enc_Generics enc_AttributedType)) by oo ltac:(auto with onto). destruct (G v3 ltac:(lia) W3) as [x3 ->]. clear G. apply on_term in W4; [|vm_compute; reflexivity]. subst v4. exists (mkSetlikeInterfaceMember x0 x1 x3). reflexivity.
Qed.
#[export] Hint Resolve onto_SetlikeInterfaceMember : onto.
Lemma onto_StringifierMember n : Onto n (Ty "StringifierMember" []) enc_StringifierMember.
Proof.
  intros v L W. istruct W fs F. destruct (field_inv _ _ _ _ F) as (v0 & l0 & -> & W0 & F0). destruct (field_inv _ _ _ _ F0) as (v1 & l1 & -> & W1 & F1). destruct (field_inv _ _ _ _ F1) as (v2 & l2 & -> & W2 & F2). apply nil_inv in F2. subst. msize. assert (G : Onto m (Ty "Option" [(Ty "Bracketed" [(Ty "Punctuated" [(Ty "ExtendedAttribute" []); (Ty "term::Comma" [])])])]) (enc_Option (enc_Bracketed (enc_Punctuated (vt "term::Comma") enc_ExtendedAttribute)))) by oo ltac:(auto with onto). destruct (G v0 ltac:(lia) W0) as [x0 ->]. clear G. apply on_term in W1; [|vm_compute; reflexivity]. subst v1. apply on_term in W2; [|vm_compute; reflexivity]. subst v2. exists (mkStringifierMember x0). reflexivity.
Qed.
#[export] Hint Resolve onto_StringifierMember : onto.
Lemma onto_InterfaceMember n : Onto n (Ty "InterfaceMember" []) enc_InterfaceMember.
Proof.
  intros v L W. ienum W c t x E. msize. 
    destruct E as [[= <- <-]|E].
    { assert (G : Onto m (Ty "ConstMember" []) enc_ConstMember) by oo ltac:(auto with onto). destruct (G x ltac:(lia) W) as [y ->]. clear G. exists (InterfaceMember_Const y). reflexivity. } 
    destruct E as [[= <- <-]|E].
    { assert (G : Onto m (Ty "AttributeInterfaceMember" []) enc_AttributeInterfaceMember) by oo ltac:(auto with onto). destruct (G x ltac:(lia) W) as [y ->]. clear G. exists (InterfaceMember_Attribute y). reflexivity. } 
    destruct E as [[= <- <-]|E].
    { assert (G : Onto m (Ty "ConstructorInterfaceMember" []) enc_ConstructorInterfaceMember) by oo ltac:(auto with onto). destruct (G x ltac:(lia) W) as [y ->]. clear G. exists (InterfaceMember_Constructor y). reflexivity. } 
    destruct E as [[= <- <-]|E].
    { assert (G : Onto m (Ty "OperationInterfaceMember" []) enc_OperationInterfaceMember) by oo ltac:(auto with onto). destruct (G x ltac:(lia) W) as [y ->]. clear G. exists (InterfaceMember_Operation y). reflexivity. } 
    destruct E as [[= <- <-]|E].
    { assert (G : Onto m (Ty "IterableInterfaceMember" []) enc_IterableInterfaceMember) by oo ltac:(auto with onto). destruct (G x ltac:(lia) W) as [y ->]. clear G. exists (InterfaceMember_Iterable y). reflexivity. } 
    destruct E as [[= <- <-]|E].
    { assert (G : Onto m (Ty "AsyncIterableInterfaceMember" []) enc_AsyncIterableInterfaceMember) by oo ltac:(auto with onto). destruct (G x ltac:(lia) W) as [y ->]. clear G. exists (InterfaceMember_AsyncIterable y). reflexivity. } 
    destruct E as [[= <- <-]|E].
    { assert (G : Onto m (Ty "MaplikeInterfaceMember" []) enc_MaplikeInterfaceMember) by oo ltac:(auto with onto). destruct (G x ltac:(lia) W) as [y ->]. clear G. exists (InterfaceMember_Maplike y). reflexivity. } 
    destruct E as [[= <- <-]|E].
    { assert (G : Onto m (Ty "SetlikeInterfaceMember" []) enc_SetlikeInterfaceMember) by oo ltac:(auto with onto). destruct (G x ltac:(lia) W) as [y ->]. clear G. exists (InterfaceMember_Setlike y). reflexivity. } 
    destruct E as [[= <- <-]|E].
    { assert (G : Onto m (Ty "StringifierMember" []) enc_StringifierMember) by oo ltac:(auto with onto). destruct (G x ltac:(lia) W) as [y ->]. clear G. exists (InterfaceMember_Stringifier y). reflexivity. } 
    destruct E.
Qed.
#[export] Hint Resolve onto_InterfaceMember : onto.
Lemma onto_OperationMixinMember n : Onto n (Ty "OperationMixinMember" []) enc_OperationMixinMember.
Proof.
  intros v L W. istruct W fs F. destruct (field_inv _ _ _ _ F) as (v0 & l0 & -> & W0 & F0). destruct (field_inv _ _ _ _ F0) as (v1 & l1 & -> & W1 & F1). destruct (field_inv _ _ _ _ F1) as (v2 & l2 & -> & W2 & F2). destruct (field_inv _ _ _ _ F2) as (v3 & l3 & -> & W3 & F3). destruct (field_inv _ _ _ _ F3) as (v4 & l4 & -> & W4 & F4). destruct (field_inv _ _ _ _ F4) as (v5 & l5 & -> & W5 & F5). apply nil_inv in F5. subst. msize. assert (G : Onto m (Ty "Option" [(Ty "Bracketed" [(Ty "Punctuated" [(Ty "ExtendedAttribute" []); (Ty "term::Comma" [])])])]) (enc_Option (enc_Bracketed (enc_Punctuated (vt "term::Comma") enc_ExtendedAttribute)))) by oo ltac:(auto with onto). destruct (G v0 ltac:(lia) W0) as [x0 ->]. clear G. assert (G : Onto m (Ty "Option" [(Ty "term::Stringifier" [])]) (enc_Option (vu "term::Stringifier"))) by oo ltac:(auto with onto). destruct (G v1 ltac:(lia) W1) as [x1 ->]. clear G. assert (G : Onto m (Ty "ReturnType" []) enc_ReturnType) by oo ltac:(auto with onto). destruct (G v2 ltac:(lia) W2) as [x2 ->]. clear G. assert (G : Onto m (Ty "Option" [(Ty "Identifier" [])]) (enc_Option enc_Identifier)) by oo ltac:(auto with onto). destruct (G v3 ltac:(lia) W3) as [x3 ->]. clear G. assert (G : Onto m (Ty "Parenthesized" [(Ty "Punctuated" [(Ty "Argument" []); (Ty "term::Comma" [])])]) (enc_Parenthesized (enc_Punctuated (vt "term::Comma") enc_Argument))) by oo ltac:(auto with onto). destruct (G v4 ltac:(lia) W4) as [x4 ->]. clear G. apply on_term in W5; [|vm_compute; reflexivity]. subst v5. exists (mkOperationMixinMember x0 x1 x2 x3 x4). reflexivity.
Qed.
#[export] Hint Resolve onto_OperationMixinMember : onto.
Lemma onto_AttributeMixinMember n : Onto n (Ty "AttributeMixinMember" []) enc_AttributeMixinMember.
Proof.
  intros v L W. istruct W fs F. destruct (field_inv _ _ _ _ F) as (v0 & l0 & -> & W0 & F0). destruct (field_inv _ _ _ _ F0) as (v1 & l1 & -> & W1 & F1). destruct (field_inv _ _ _ _ F1) as (v2 & l2 & -> & W2 & F2). destruct (field_inv _ _ _ _ F2) as (v3 & l3 & -> & W3 & F3). destruct (field_inv _ _ _ _ F3) as (v4 & l4 & -> & W4 & F4). destruct (field_inv _ _ _ _ F4) as (v5 & l5 & -> & W5 & F5). destruct (field_inv _ _ _ _ F5) as (v6 & l6 & -> & W6 & F6). apply nil_inv in F6. subst. msize. assert (G : Onto m (Ty "Option" [(Ty "Bracketed" [(Ty "Punctuated" [(Ty "ExtendedAttribute" []); (Ty "term::Comma" [])])])]) (enc_Option (enc_Bracketed (enc_Punctuated (vt "term::Comma") enc_ExtendedAttribute)))) by oo ltac:(auto with onto). destruct (G v0 ltac:(lia) W0) as [x0 ->]. clear G. assert (G : Onto m (Ty "Option" [(Ty "term::Stringifier" [])]) (enc_Option (vu "term::Stringifier"))) by oo ltac:(auto with onto). destruct (G v1 ltac:(lia) W1) as [x1 ->]. clear G. assert (G : Onto m (Ty "Option" [(Ty "term::ReadOnly" [])]) (enc_Option (vu "term::ReadOnly"))) by oo ltac:(auto with onto). destruct (G v2 ltac:(lia) W2) as [x2 ->]. clear G. apply on_term in W3; [|vm_compute; reflexivity]. subst v3. assert (G : Onto m (Ty "AttributedType" []) enc_AttributedType) by oo ltac:(auto with onto). destruct (G v4 ltac:(lia) W4) as [x4 ->]. clear G. assert (G : Onto m (Ty "Identifier" []) enc_Identifier) by oo ltac:(auto with onto). destruct (G v5 ltac:(lia) W5) as [x5 ->]. clear G. apply on_term in W6; [|vm_compute; reflexivity]. subst v6. exists (mkAttributeMixinMember x0 x1 x2 x4 x5). reflexivity.
Qed.
#[export] Hint Resolve onto_AttributeMixinMember : onto.
Lemma onto_MixinMember n : Onto n (Ty "MixinMember" []) enc_MixinMember.
Proof.
  intros v L W. ienum W c t x E. msize. 
    destruct E as [[= <- <-]|E].
    { assert (G : Onto m (Ty "ConstMember" []) enc_ConstMember) by oo ltac:(auto with onto). destruct (G x ltac:(lia) W) as [y ->]. clear G. exists (MixinMember_Const y). reflexivity. } 
    destruct E as [[= <- <-]|E].
    { assert (G : Onto m (Ty "OperationMixinMember" []) enc_OperationMixinMember) by oo ltac:(auto with onto). destruct (G x ltac:(lia) W) as [y ->]. clear G. exists (MixinMember_Operation y). reflexivity. } 
    destruct E as [[= <- <-]|E].
    { assert (G : Onto m (Ty "AttributeMixinMember" []) enc_AttributeMixinMember) by oo ltac:(auto with onto). destruct (G x ltac:(lia) W) as [y ->]. clear G. exists (MixinMember_Attribute y). reflexivity. } 
    destruct E as [[= <- <-]|E].
    { assert (G : Onto m (Ty "StringifierMember" []) enc_StringifierMember) by oo ltac:(auto with onto). destruct (G x ltac:(lia) W) as [y ->]. clear G. exists (MixinMember_Stringifier y). reflexivity. } 
    destruct E.
Qed.
#[export] Hint Resolve onto_MixinMember : onto.
Lemma onto_ConstNamespaceMember n : Onto n (Ty "ConstNamespaceMember" []) enc_ConstNamespaceMember.
Proof.
  intros v L W. istruct W fs F. destruct (field_inv _ _ _ _ F) as (v0 & l0 & -> & W0 & F0). destruct (field_inv _ _ _ _ F0) as (v1 & l1 & -> & W1 & F1). destruct (field_inv _ _ _ _ F1) as (v2 & l2 & -> & W2 & F2). destruct (field_inv _ _ _ _ F2) as (v3 & l3 & -> & W3 & F3). destruct (field_inv _ _ _ _ F3) as (v4 & l4 & -> & W4 & F4). destruct (field_inv _ _ _ _ F4) as (v5 & l5 & -> & W5 & F5). destruct (field_inv _ _ _ _ F5) as (v6 & l6 & -> & W6 & F6). apply nil_inv in F6. subst. msize. assert (G : Onto m (Ty "Option" [(Ty "Bracketed" [(Ty "Punctuated" [(Ty "ExtendedAttribute" []); (Ty "term::Comma" [])])])]) (enc_Option (enc_Bracketed (enc_Punctuated (vt "term::Comma") enc_ExtendedAttribute)))) by oo ltac:(auto with onto). destruct (G v0 ltac:(lia) W0) as [x0 ->]. clear G. apply on_term in W1; [|vm_compute; reflexivity]. subst v1. assert (G : Onto m (Ty "ConstType" []) enc_ConstType) by oo ltac:(auto with onto). destruct (G v2 ltac:(lia) W2) as [x2 ->]. clear G. assert (G : Onto m (Ty "Identifier" []) enc_Identifier) by oo ltac:(auto with onto). destruct (G v3 ltac:(lia) W3) as [x3 ->]. clear G. apply on_term in W4; [|vm_compute; reflexivity]. subst v4. assert (G : Onto m (Ty "ConstValue" []) enc_ConstValue) by oo ltac:(auto with onto). destruct (G v5 ltac:(lia) W5) as [x5 ->]. clear G. apply on_term in W6; [|vm_compute; reflexivity]. subst v6. exists (mkConstNamespaceMember x0 x2 x3 x5). reflexivity.
Qed.
#[export] Hint Resolve onto_ConstNamespaceMember : onto.
Lemma onto_OperationNamespaceMember n : Onto n (Ty "OperationNamespaceMember" []) enc_OperationNamespaceMember.
Proof.
  intros v L W. istruct W fs F. destruct (field_inv _ _ _ _ F) as (v0 & l0 & -> & W0 & F0). destruct (field_inv _ _ _ _ F0) as (v1 & l1 & -> & W1 & F1). destruct (field_inv _ _ _ _ F1) as (v2 & l2 & -> & W2 & F2). destruct (field_inv _ _ _ _ F2) as (v3 & l3 & -> & W3 & F3). destruct (field_inv _ _ _ _ F3) as (v4 & l4 & -> & W4 & F4). apply nil_inv in F4. subst. msize. assert (G : Onto m (Ty "Option" [(Ty "Bracketed" [(Ty "Punctuated" [(Ty "ExtendedAttribute" []); (Ty "term::Comma" [])])])]) (enc_Option (enc_Bracketed (enc_Punctuated (vt "term::Comma") enc_ExtendedAttribute)))) by oo ltac:(auto with onto). destruct (G v0 ltac:(lia) W0) as [x0 ->]. clear G. assert (G : Onto m (Ty "ReturnType" []) enc_ReturnType) by oo ltac:(auto with onto). destruct (G v1 ltac:(lia) W1) as [x1 ->]. clear G. assert (G : Onto m (Ty "Option" [(Ty "Identifier" [])]) (enc_Option enc_Identifier)) by oo ltac:(auto with onto). destruct (G v2 ltac:(lia) W2) as [x2 ->]. clear G. assert (G : Onto m (Ty "Parenthesized" [(Ty "Punctuated" [(Ty "Argument" []); (Ty "term::Comma" [])])]) (enc_Parenthesized (enc_Punctuated (vt "term::Comma") enc_Argument))) by oo ltac:(auto with onto). destruct (G v3 ltac:(lia) W3) as [x3 ->]. clear G. apply on_term in W4; [|vm_compute; reflexivity]. subst v4. exists (mkOperationNamespaceMember x0 x1 x2 x3). reflexivity.
Qed.
#[export] Hint Resolve onto_OperationNamespaceMember : onto.
Lemma onto_AttributeNamespaceMember n : Onto n (Ty "AttributeNamespaceMember" []) enc_AttributeNamespaceMember.
Proof.
  intros v L W. istruct W fs F. destruct (field_inv _ _ _ _ F) as (v0 & l0 & -> & W0 & F0). destruct (field_inv _ _ _ _ F0) as (v1 & l1 & -> & W1 & F1). destruct (field_inv _ _ _ _ F1) as (v2 & l2 & -> & W2 & F2). destruct (field_inv _ _ _ _ F2) as (v3 & l3 & -> & W3 & F3). destruct (field_inv _ _ _ _ F3) as (v4 & l4 & -> & W4 & F4). destruct (field_inv _ _ _ _ F4) as (v5 & l5 & -> & W5 & F5). apply nil_inv in F5. subst. msize. assert (G : Onto m (Ty "Option" [(Ty "Bracketed" [(Ty "Punctuated" [(Ty "ExtendedAttribute" []); (Ty "term::Comma" [])])])]) (enc_Option (enc_Bracketed (enc_Punctuated (vt "term::Comma") enc_ExtendedAttribute)))) by oo ltac:(auto with onto). destruct (G v0 ltac:(lia) W0) as [x0 ->]. clear G. apply on_term in W1; [|vm_compute; reflexivity]. subst v1. apply on_term in W2; [|vm_compute; reflexivity]. subst v2. assert (G : Onto m (Ty "AttributedType" []) enc_AttributedType) by oo ltac:(auto with onto). destruct (G v3 ltac:(lia) W3) as [x3 ->]. clear G. assert (G : Onto m (Ty "Identifier" []) enc_Identifier) by oo ltac:(auto with onto). destruct (G v4 ltac:(lia) W4) as [x4 ->]. clear G. apply on_term in W5; [|vm_compute; reflexivity]. subst v5. exists (mkAttributeNamespaceMember x0 x3 x4). reflexivity.
Qed.
#[export] Hint Resolve onto_AttributeNamespaceMember : onto.
Lemma onto_NamespaceMember n : Onto n (Ty "NamespaceMember" []) enc_NamespaceMember.
Proof.
  intros v L W. ienum W c t x E. msize. 
    destruct E as [[= <- <-]|E].
    { assert (G : Onto m (Ty "ConstNamespaceMember" []) enc_ConstNamespaceMember) by oo ltac:(auto with onto). destruct (G x ltac:(lia) W) as [y ->]. clear G. exists (NamespaceMember_Const y). reflexivity. } 
    destruct E as [[= <- <-]|E].
    { assert (G : Onto m (Ty "OperationNamespaceMember" []) enc_OperationNamespaceMember) by oo ltac:(auto with onto). destruct (G x ltac:(lia) W) as [y ->]. clear G. exists (NamespaceMember_Operation y). reflexivity. } 
    destruct E as [[= <- <-]|E].
    { assert (G : Onto m (Ty "AttributeNamespaceMember" []) enc_AttributeNamespaceMember) by oo ltac:(auto with onto). destruct (G x ltac:(lia) W) as [y ->]. clear G. exists (NamespaceMember_Attribute y). reflexivity. } 
    destruct E.
Qed.
#[export] Hint Resolve onto_NamespaceMember : onto.
Lemma onto_CallbackDefinition n : Onto n (Ty "CallbackDefinition" []) enc_CallbackDefinition.
Proof.
  intros v L W. istruct W fs F. destruct (field_inv _ _ _ _ F) as (v0 & l0 & -> & W0 & F0). destruct (field_inv _ _ _ _ F0) as (v1 & l1 & -> & W1 & F1). destruct (field_inv _ _ _ _ F1) as (v2 & l2 & -> & W2 & F2). destruct (field_inv _ _ _ _ F2) as (v3 & l3 & -> & W3 & F3). destruct (field_inv _ _ _ _ F3) as (v4 & l4 & -> & W4 & F4). destruct (field_inv _ _ _ _ F4) as (v5 & l5 & -> & W5 & F5). destruct (field_inv _ _ _ _ F5) as (v6 & l6 & -> & W6 & F6). apply nil_inv in F6. subst. msize. assert (G : Onto m (Ty "Option" [(Ty "Bracketed" [(Ty "Punctuated" [(Ty "ExtendedAttribute" []); (Ty "term::Comma" [])])])]) (enc_Option (enc_Bracketed (enc_Punctuated (vt "term::Comma") enc_ExtendedAttribute)))) by oo ltac:(auto with onto). destruct (G v0 ltac:(lia) W0) as [x0 ->]. clear G. apply on_term in W1; [|vm_compute; reflexivity]. subst v1. assert (G : Onto m (Ty "Identifier" []) enc_Identifier) by oo ltac:(auto with onto). destruct (G v2 ltac:(lia) W2) as [x2 ->]. clear G. apply on_term in W3; [|vm_compute; reflexivity]. subst v3. assert (G : Onto m (Ty "ReturnType" []) enc_ReturnType) by oo ltac:(auto with onto). destruct (G v4 ltac:(lia) W4) as [x4 ->]. clear G. assert (G : Onto m (Ty "Parenthesized" [(Ty "Punctuated" [(Ty "Argument" []); (Ty "term::Comma" [])])]) (enc_Parenthesized (enc_Punctuated (vt "term::Comma") enc_Argument))) by oo ltac:(auto with onto). destruct (G v5 ltac:(lia) W5) as [x5 ->]. clear G. apply on_term in W6; [|vm_compute; reflexivity]. subst v6. exists (mkCallbackDefinition x0 x2 x4 x5). reflexivity.
Qed.
#[export] Hint Resolve onto_CallbackDefinition : onto.
Lemma onto_CallbackInterfaceDefinition n : Onto n (Ty "CallbackInterfaceDefinition" []) enc_CallbackInterfaceDefinition.
Proof.
  intros v L W. istruct W fs F. destruct (field_inv _ _ _ _ F) as (v0 & l0 & -> & W0 & F0). destruct (field_inv _ _ _ _ F0) as (v1 & l1 & -> & W1 & F1). destruct (field_inv _ _ _ _ F1) as (v2 & l2 & -> & W2 & F2). destruct (field_inv _ _ _ _ F2) as (v3 & l3 & -> & W3 & F3). destruct (field_inv _ _ _ _ F3) as (v4 & l4 & -> & W4 & F4). destruct (field_inv _ _ _ _ F4) as (v5 & l5 & -> & W5 & F5). destruct (field_inv _ _ _ _ F5) as (v6 & l6 & -> & W6 & F6). apply nil_inv in F6. subst. msize. assert (G : Onto m (Ty "Option" [(Ty "Bracketed" [(Ty "Punctuated" [(Ty "ExtendedAttribute" []); (Ty "term::Comma" [])])])]) (enc_Option (enc_Bracketed (enc_Punctuated (vt "term::Comma") enc_ExtendedAttribute)))) by oo ltac:(auto with onto). destruct (G v0 ltac:(lia) W0) as [x0 ->]. clear G. apply on_term in W1; [|vm_compute; reflexivity]. subst v1. apply on_term in W2; [|vm_compute; reflexivity]. subst v2. assert (G : Onto m (Ty "Identifier" []) enc_Identifier) by oo ltac:(auto with onto). destruct (G v3 ltac:(lia) W3) as [x3 ->]. clear G. assert (G : Onto m (Ty "Option" [(Ty "Inheritance" [])]) (enc_Option enc_Inheritance)) by oo ltac:(auto with onto). destruct (G v4 ltac:(lia) W4) as [x4 ->]. clear G. assert (G : Onto m (Ty "Braced" [(Ty "Vec" [(Ty "InterfaceMember" [])])]) (enc_Braced (enc_Vec enc_InterfaceMember))) by oo ltac:(auto with onto). destruct (G v5 ltac:(lia) W5) as [x5 ->]. clear G. apply on_term in W6; [|vm_compute; reflexivity]. subst v6. exists (mkCallbackInterfaceDefinition x0 x3 x4 x5). reflexivity.
Qed.
#[export] Hint Resolve onto_CallbackInterfaceDefinition : onto.
Lemma onto_InterfaceDefinition n : Onto n (Ty "InterfaceDefinition" []) enc_InterfaceDefinition.
Proof.
  intros v L W. istruct W fs F. destruct (field_inv _ _ _ _ F) as (v0 & l0 & -> & W0 & F0). destruct (field_inv _ _ _ _ F0) as (v1 & l1 & -> & W1 & F1). destruct (field_inv _ _ _ _ F1) as (v2 & l2 & -> & W2 & F2). destruct (field_inv _ _ _ _ F2) as (v3 & l3 & -> & W3 & F3). destruct (field_inv _ _ _ _ F3) as (v4 & l4 & -> & W4 & F4). destruct (field_inv _ _ _ _ F4) as (v5 & l5 & -> & W5 & F5). apply nil_inv in F5. subst. msize. assert (G : Onto m (Ty "Option" [(Ty "Bracketed" [(Ty "Punctuated" [(Ty "ExtendedAttribute" []); (Ty "term::Comma" [])])])]) (enc_Option (enc_Bracketed (enc_Punctuated (vt "term::Comma") enc_ExtendedAttribute)))) by oo ltac:(auto with onto). destruct (G v0 ltac:(lia) W0) as [x0 ->]. clear G. apply on_term in W1; [|vm_compute; reflexivity]. subst v1. assert (G : Onto m (Ty "Identifier" []) enc_Identifier) by oo ltac:(auto with onto). destruct (G v2 ltac:(lia) W2) as [x2 ->]. clear G. assert (G : Onto m (Ty "Option" [(Ty "Inheritance" [])]) (enc_Option enc_Inheritance)) by oo ltac:(auto with onto). destruct (G v3 ltac:(lia) W3) as [x3 ->]. clear G. assert (G : Onto m (Ty "Braced" [(Ty "Vec" [(Ty "InterfaceMember" [])])]) (enc_Braced (enc_Vec enc_InterfaceMember))) by oo ltac:(auto with onto). destruct (G v4 ltac:(lia) W4) as [x4 ->]. clear G. apply on_term in W5; [|vm_compute; reflexivity]. subst v5. exists (mkInterfaceDefinition x0 x2 x3 x4). reflexivity.
Qed.
#[export] Hint Resolve onto_InterfaceDefinition : onto.
Lemma onto_InterfaceMixinDefinition n : Onto n (Ty "InterfaceMixinDefinition" []) enc_InterfaceMixinDefinition.
Proof.
  intros v L W. istruct W fs F. destruct (field_inv _ _ _ _ F) as (v0 & l0 & -> & W0 & F0). destruct (field_inv _ _ _ _ F0) as (v1 & l1 & -> & W1 & F1). destruct (field_inv _ _ _ _ F1) as (v2 & l2 & -> & W2 & F2). destruct (field_inv _ _ _ _ F2) as (v3 & l3 & -> & W3 & F3). destruct (field_inv _ _ _ _ F3) as (v4 & l4 & -> & W4 & F4). destruct (field_inv _ _ _ _ F4) as (v5 & l5 & -> & W5 & F5). apply nil_inv in F5. subst. msize. assert (G : Onto m (Ty "Option" [(Ty "Bracketed" [(Ty "Punctuated" [(Ty "ExtendedAttribute" []); (Ty "term::Comma" [])])])]) (enc_Option (enc_Bracketed (enc_Punctuated (vt "term::Comma") enc_ExtendedAttribute)))) by oo ltac:(auto with onto). destruct (G v0 ltac:(lia) W0) as [x0 ->]. clear G. apply on_term in W1; [|vm_compute; reflexivity]. subst v1. apply on_term in W2; [|vm_compute; reflexivity]. subst v2. assert (G : Onto m (Ty "Identifier" []) enc_Identifier) by oo ltac:(auto with onto). destruct (G v3 ltac:(lia) W3) as [x3 ->]. clear G. assert (G : Onto m (Ty "Braced" [(Ty "Vec" [(Ty "MixinMember" [])])]) (enc_Braced (enc_Vec enc_MixinMember))) by oo ltac:(auto with onto). destruct (G v4 ltac:(lia) W4) as [x4 ->]. clear G. apply on_term in W5; [|vm_compute; reflexivity]. subst v5. exists (mkInterfaceMixinDefinition x0 x3 x4). reflexivity.
Qed.
#[export] Hint Resolve onto_InterfaceMixinDefinition : onto.
Lemma onto_NamespaceDefinition n : Onto n (Ty "NamespaceDefinition" []) enc_NamespaceDefinition.
Proof.
  intros v L W. istruct W fs F. destruct (field_inv _ _ _ _ F) as (v0 & l0 & -> & W0 & F0). destruct (field_inv _ _ _ _ F0) as (v1 & l1 & -> & W1 & F1). destruct (field_inv _ _ _ _ F1) as (v2 & l2 & -> & W2 & F2). destruct (field_inv _ _ _ _ F2) as (v3 & l3 & -> & W3 & F3). destruct (field_inv _ _ _ _ F3) as (v4 & l4 & -> & W4 & F4). apply nil_inv in F4. subst. msize. assert (G : Onto m (Ty "Option" [(Ty "Bracketed" [(Ty "Punctuated" [(Ty "ExtendedAttribute" []); (Ty "term::Comma" [])])])]) (enc_Option (enc_Bracketed (enc_Punctuated (vt "term::Comma") enc_ExtendedAttribute)))) by oo ltac:(auto with onto). destruct (G v0 ltac:(lia) W0) as [x0 ->]. clear G. apply on_term in W1; [|vm_compute; reflexivity]. subst v1. assert (G : Onto m (Ty "Identifier" []) enc_Identifier) by oo ltac:(auto with onto). destruct (G v2 ltac:(lia) W2) as [x2 ->]. clear G. assert (G : Onto m (Ty "Braced" [(Ty "Vec" [(Ty "NamespaceMember" [])])]) (enc_Braced (enc_Vec enc_NamespaceMember))) by oo ltac:(auto with onto). destruct (G v3 ltac:(lia) W3) as [x3 ->]. clear G. apply on_term in W4; [|vm_compute; reflexivity]. subst v4. exists (mkNamespaceDefinition x0 x2 x3). reflexivity.
Qed.
#[export] Hint Resolve onto_NamespaceDefinition : onto.
Lemma onto_DictionaryDefinition n : Onto n (Ty "DictionaryDefinition" []) enc_DictionaryDefinition.
Proof.
  intros v L W. istruct W fs F. destruct (field_inv _ _ _ _ F) as (v0 & l0 & -> & W0 & F0). destruct (field_inv _ _ _ _ F0) as (v1 & l1 & -> & W1 & F1). destruct (field_inv _ _ _ _ F1) as (v2 & l2 & -> & W2 & F2). destruct (field_inv _ _ _ _ F2) as (v3 & l3 & -> & W3 & F3). destruct (field_inv _ _ _ _ F3) as (v4 & l4 & -> & W4 & F4). destruct (field_inv _ _ _ _ F4) as (v5 & l5 & -> & W5 & F5). apply nil_inv in F5. subst. msize. assert (G : Onto m (Ty "Option" [(Ty "Bracketed" [(Ty "Punctuated" [(Ty "ExtendedAttribute" []); (Ty "term::Comma" [])])])]) (enc_Option (enc_Bracketed (enc_Punctuated (vt "term::Comma") enc_ExtendedAttribute)))) by oo ltac:(auto with onto). destruct (G v0 ltac:(lia) W0) as [x0 ->]. clear G. apply on_term in W1; [|vm_compute; reflexivity]. subst v1. assert (G : Onto m (Ty "Identifier" []) enc_Identifier) by oo ltac:(auto with onto). destruct (G v2 ltac:(lia) W2) as [x2 ->]. clear G. assert (G : Onto m (Ty "Option" [(Ty "Inheritance" [])]) (enc_Option enc_Inheritance)) by oo ltac:(auto with onto). destruct (G v3 ltac:(lia) W3) as [x3 ->]. clear G. assert (G : Onto m (Ty "Braced" [(Ty "Vec" [(Ty "DictionaryMember" [])])]) (enc_Braced (enc_Vec enc_DictionaryMember))) by oo ltac:(auto with onto). destruct (G v4 ltac:(lia) W4) as [x4 ->]. clear G. apply on_term in W5; [|vm_compute; reflexivity]. subst v5. exists (mkDictionaryDefinition x0 x2 x3 x4). reflexivity.
Qed.
#[export] Hint Resolve onto_DictionaryDefinition : onto.
Lemma onto_PartialInterfaceDefinition n : Onto n (Ty "PartialInterfaceDefinition" []) enc_PartialInterfaceDefinition.
Proof.
  intros v L W. istruct W fs F. destruct (field_inv _ _ _ _ F) as (v0 & l0 & -> & W0 & F0). destruct (field_inv _ _ _ _ F0) as (v1 & l1 & -> & W1 & F1). destruct (field_inv _ _ _ _ F1) as (v2 & l2 & -> & W2 & F2). destruct (field_inv _ _ _ _ F2) as (v3 & l3 & -> & W3 & F3). destruct (field_inv _ _ _ _ F3) as (v4 & l4 & -> & W4 & F4). destruct (field_inv _ _ _ _ F4) as (v5 & l5 & -> & W5 & F5). apply nil_inv in F5. subst. msize. assert (G : Onto m (Ty "Option" [(Ty "Bracketed" [(Ty "Punctuated" [(Ty "ExtendedAttribute" []); (Ty "term::Comma" [])])])]) (enc_Option (enc_Bracketed (enc_Punctuated (vt "term::Comma") enc_ExtendedAttribute)))) by oo ltac:(auto with onto). destruct (G v0 ltac:(lia) W0) as [x0 ->]. clear G. apply on_term in W1; [|vm_compute; reflexivity]. subst v1. apply on_term in W2; [|vm_compute; reflexivity]. subst v2. assert (G : Onto m (Ty "Identifier" []) enc_Identifier) by oo ltac:(auto with onto). destruct (G v3 ltac:(lia) W3) as [x3 ->]. clear G. assert (G : Onto m (Ty "Braced" [(Ty "Vec" [(Ty "InterfaceMember" [])])]) (enc_Braced (enc_Vec enc_InterfaceMember))) by oo ltac:(auto with onto). destruct (G v4 ltac:(lia) W4) as [x4 ->]. clear G. apply on_term in W5; [|vm_compute; reflexivity]. subst v5. exists (mkPartialInterfaceDefinition x0 x3 x4). reflexivity.
Qed.
#[export] Hint Resolve onto_PartialInterfaceDefinition : onto.
Lemma onto_PartialInterfaceMixinDefinition n : Onto n (Ty "PartialInterfaceMixinDefinition" []) enc_PartialInterfaceMixinDefinition.
Proof.
  intros v L W. istruct W fs F. destruct (field_inv _ _ _ _ F) as (v0 & l0 & -> & W0 & F0). destruct (field_inv _ _ _ _ F0) as (v1 & l1 & -> & W1 & F1). destruct (field_inv _ _ _ _ F1) as (v2 & l2 & -> & W2 & F2). destruct (field_inv _ _ _ _ F2) as (v3 & l3 & -> & W3 & F3). destruct (field_inv _ _ _ _ F3) as (v4 & l4 & -> & W4 & F4). destruct (field_inv _ _ _ _ F4) as (v5 & l5 & -> & W5 & F5). destruct (field_inv _ _ _ _ F5) as (v6 & l6 & -> & W6 & F6). apply nil_inv in F6. subst. msize. assert (G : Onto m (Ty "Option" [(Ty "Bracketed" [(Ty "Punctuated" [(Ty "ExtendedAttribute" []); (Ty "term::Comma" [])])])]) (enc_Option (enc_Bracketed (enc_Punctuated (vt "term::Comma") enc_ExtendedAttribute)))) by oo ltac:(auto with onto). destruct (G v0 ltac:(lia) W0) as [x0 ->]. clear G. apply on_term in W1; [|vm_compute; reflexivity]. subst v1. apply on_term in W2; [|vm_compute; reflexivity]. subst v2. apply on_term in W3; [|vm_compute; reflexivity]. subst v3. assert (G : Onto m (Ty "Identifier" []) enc_Identifier) by oo ltac:(auto with onto). destruct (G v4 ltac:(lia) W4) as [x4 ->]. clear G. assert (G : Onto m (Ty "Braced" [(Ty "Vec" [(Ty "MixinMember" [])])]) (enc_Braced (enc_Vec enc_MixinMember))) by oo ltac:(auto with onto). destruct (G v5 ltac:(lia) W5) as [x5 ->]. clear G. apply on_term in W6; [|vm_compute; reflexivity]. subst v6. exists (mkPartialInterfaceMixinDefinition x0 x4 x5). reflexivity.
Qed.
#[export] Hint Resolve onto_PartialInterfaceMixinDefinition : onto.
Lemma onto_PartialDictionaryDefinition n : Onto n (Ty "PartialDictionaryDefinition" []) enc_PartialDictionaryDefinition.
Proof.
  intros v L W. istruct W fs F. destruct (field_inv _ _ _ _ F) as (v0 & l0 & -> & W0 & F0). destruct (field_inv _ _ _ _ F0) as (v1 & l1 & -> & W1 & F1). destruct (field_inv _ _ _ _ F1) as (v2 & l2 & -> & W2 & F2). destruct (field_inv _ _ _ _ F2) as (v3 & l3 & -> & W3 & F3). destruct (field_inv _ _ _ _ F3) as (v4 & l4 & -> & W4 & F4). destruct (field_inv _ _ _ _ F4) as (v5 & l5 & -> & W5 & F5). apply nil_inv in F5. subst. msize. assert (G : Onto m (Ty "Option" [(Ty "Bracketed" [(Ty "Punctuated" [(Ty "ExtendedAttribute" []); (Ty "term::Comma" [])])])]) (enc_Option (enc_Bracketed (enc_Punctuated (vt "term::Comma") enc_ExtendedAttribute)))) by oo ltac:(auto with onto). destruct (G v0 ltac:(lia) W0) as [x0 ->]. clear G. apply on_term in W1; [|vm_compute; reflexivity]. subst v1. apply on_term in W2; [|vm_compute; reflexivity]. subst v2. assert (G : Onto m (Ty "Identifier" []) enc_Identifier) by oo ltac:(auto with onto). destruct (G v3 ltac:(lia) W3) as [x3 ->]. clear G. assert (G : Onto m (Ty "Braced" [(Ty "Vec" [(Ty "DictionaryMember" [])])]) (enc_Braced (enc_Vec enc_DictionaryMember))) by oo ltac:(auto with onto). destruct (G v4 ltac:(lia) W4) as [x4 ->]. clear G. apply on_term in W5; [|vm_compute; reflexivity]. subst v5. exists (mkPartialDictionaryDefinition x0 x3 x4). reflexivity.
Qed.
#[export] Hint Resolve onto_PartialDictionaryDefinition : onto.
Lemma onto_PartialNamespaceDefinition n : Onto n (Ty "PartialNamespaceDefinition" []) enc_PartialNamespaceDefinition.
Proof.
  intros v L W. istruct W fs F. destruct (field_inv _ _ _ _ F) as (v0 & l0 & -> & W0 & F0). destruct (field_inv _ _ _ _ F0) as (v1 & l1 & -> & W1 & F1). destruct (field_inv _ _ _ _ F1) as (v2 & l2 & -> & W2 & F2). destruct (field_inv _ _ _ _ F2) as (v3 & l3 & -> & W3 & F3). destruct (field_inv _ _ _ _ F3) as (v4 & l4 & -> & W4 & F4). destruct (field_inv _ _ _ _ F4) as (v5 & l5 & -> & W5 & F5). apply nil_inv in F5. subst. msize. assert (G : Onto m (Ty "Option" [(Ty "Bracketed" [(Ty "Punctuated" [(Ty "ExtendedAttribute" []); (Ty "term::Comma" [])])])]) (enc_Option (enc_Bracketed (enc_Punctuated (vt "term::Comma") enc_ExtendedAttribute)))) by oo ltac:(auto with onto). destruct (G v0 ltac:(lia) W0) as [x0 ->]. clear G. apply on_term in W1; [|vm_compute; reflexivity]. subst v1. apply on_term in W2; [|vm_compute; reflexivity]. subst v2. assert (G : Onto m (Ty "Identifier" []) enc_Identifier) by oo ltac:(auto with onto). destruct (G v3 ltac:(lia) W3) as [x3 ->]. clear G. assert (G : Onto m (Ty "Braced" [(Ty "Vec" [(Ty "NamespaceMember" [])])]) (enc_Braced (enc_Vec enc_NamespaceMember))) by oo ltac:(auto with onto). destruct (G v4 ltac:(lia) W4) as [x4 ->]. clear G. apply on_term in W5; [|vm_compute; reflexivity]. subst v5. exists (mkPartialNamespaceDefinition x0 x3 x4). reflexivity.
Qed.
#[export] Hint Resolve onto_PartialNamespaceDefinition : onto.
Lemma onto_EnumDefinition n : Onto n (Ty "EnumDefinition" []) enc_EnumDefinition.
Proof.
  intros v L W. istruct W fs F. destruct (field_inv _ _ _ _ F) as (v0 & l0 & -> & W0 & F0). destruct (field_inv _ _ _ _ F0) as (v1 & l1 & -> & W1 & F1). destruct (field_inv _ _ _ _ F1) as (v2 & l2 & -> & W2 & F2). destruct (field_inv _ _ _ _ F2) as (v3 & l3 & -> & W3 & F3). destruct (field_inv _ _ _ _ F3) as (v4 & l4 & -> & W4 & F4). apply nil_inv in F4. subst. msize. assert (G : Onto m (Ty "Option" [(Ty "Bracketed" [(Ty "Punctuated" [(Ty "ExtendedAttribute" []); (Ty "term::Comma" [])])])]) (enc_Option (enc_Bracketed (enc_Punctuated (vt "term::Comma") enc_ExtendedAttribute)))) by oo ltac:(auto with onto). destruct (G v0 ltac:(lia) W0) as [x0 ->]. clear G. apply on_term in W1; [|vm_compute; reflexivity]. subst v1. assert (G : Onto m (Ty "Identifier" []) enc_Identifier) by oo ltac:(auto with onto). destruct (G v2 ltac:(lia) W2) as [x2 ->]. clear G. assert (G : Onto m (Ty "Braced" [(Ty "PunctuatedNonEmpty" [(Ty "StringLit" []); (Ty "term::Comma" [])])]) (enc_Braced (enc_PunctuatedNonEmpty (vt "term::Comma") enc_StringLit))) by oo ltac:(auto with onto). destruct (G v3 ltac:(lia) W3) as [x3 ->]. clear G. apply on_term in W4; [|vm_compute; reflexivity]. subst v4. exists (mkEnumDefinition x0 x2 x3). reflexivity.
Qed.
#[export] Hint Resolve onto_EnumDefinition : onto.
Lemma onto_TypedefDefinition n : Onto n (Ty "TypedefDefinition" []) enc_TypedefDefinition.
Proof.
  intros v L W. istruct W fs F. destruct (field_inv _ _ _ _ F) as (v0 & l0 & -> & W0 & F0). destruct (field_inv _ _ _ _ F0) as (v1 & l1 & -> & W1 & F1). destruct (field_inv _ _ _ _ F1) as (v2 & l2 & -> & W2 & F2). destruct (field_inv _ _ _ _ F2) as (v3 & l3 & -> & W3 & F3). destruct (field_inv _ _ _ _ F3) as (v4 & l4 & -> & W4 & F4). apply nil_inv in F4. subst. msize. assert (G : Onto m (Ty "Option" [(Ty "Bracketed" [(Ty "Punctuated" [(Ty "ExtendedAttribute" []); (Ty "term::Comma" [])])])]) (enc_Option (enc_Bracketed (enc_Punctuated (vt "term::Comma") enc_ExtendedAttribute)))) by oo ltac:(auto with onto). destruct (G v0 ltac:(lia) W0) as [x0 ->]. clear G. apply on_term in W1; [|vm_compute; reflexivity]. subst v1. assert (G : Onto m (Ty "AttributedType" []) enc_AttributedType) by oo ltac:(auto with onto). destruct (G v2 ltac:(lia) W2) as [x2 ->]. clear G. assert (G : Onto m (Ty "Identifier" []) enc_Identifier) by oo ltac:(auto with onto). destruct (G v3 ltac:(lia) W3) as [x3 ->]. clear G. apply on_term in W4; [|vm_compute; reflexivity]. subst v4. exists (mkTypedefDefinition x0 x2 x3). reflexivity.
Qed.
#[export] Hint Resolve onto_TypedefDefinition : onto.
Lemma onto_IncludesStatementDefinition n : Onto n (Ty "IncludesStatementDefinition" []) enc_IncludesStatementDefinition.
Proof.
  intros v L W. istruct W fs F. destruct (field_inv _ _ _ _ F) as (v0 & l0 & -> & W0 & F0). destruct (field_inv _ _ _ _ F0) as (v1 & l1 & -> & W1 & F1). destruct (field_inv _ _ _ _ F1) as (v2 & l2 & -> & W2 & F2). destruct (field_inv _ _ _ _ F2) as (v3 & l3 & -> & W3 & F3). destruct (field_inv _ _ _ _ F3) as (v4 & l4 & -> & W4 & F4). apply nil_inv in F4. subst. msize. assert (G : Onto m (Ty "Option" [(Ty "Bracketed" [(Ty "Punctuated" [(Ty "ExtendedAttribute" []); (Ty "term::Comma" [])])])]) (enc_Option (enc_Bracketed (enc_Punctuated (vt "term::Comma") enc_ExtendedAttribute)))) by oo ltac:(auto with onto). destruct (G v0 ltac:(lia) W0) as [x0 ->]. clear G. assert (G : Onto m (Ty "Identifier" []) enc_Identifier) by oo ltac:(auto with onto). destruct (G v1 ltac:(lia) W1) as [x1 ->]. clear G. apply on_term in W2; [|vm_compute; reflexivity]. subst v2. assert (G : Onto m (Ty "Identifier" []) enc_Identifier) by oo ltac:(auto with onto). destruct (G v3 ltac:(lia) W3) as [x3 ->]. clear G. apply on_term in W4; [|vm_compute; reflexivity]. subst v4. exists (mkIncludesStatementDefinition x0 x1 x3). reflexivity.
Qed.
#[export] Hint Resolve onto_IncludesStatementDefinition : onto.
Lemma onto_ImplementsDefinition n : Onto n (Ty "ImplementsDefinition" []) enc_ImplementsDefinition.
Proof.
  intros v L W. istruct W fs F. destruct (field_inv _ _ _ _ F) as (v0 & l0 & -> & W0 & F0). destruct (field_inv _ _ _ _ F0) as (v1 & l1 & -> & W1 & F1). destruct (field_inv _ _ _ _ F1) as (v2 & l2 & -> & W2 & F2). destruct (field_inv _ _ _ _ F2) as (v3 & l3 & -> & W3 & F3). destruct (field_inv _ _ _ _ F3) as (v4 & l4 & -> & W4 & F4). apply nil_inv in F4. subst. msize. assert (G : Onto m (Ty "Option" [(Ty "Bracketed" [(Ty "Punctuated" [(Ty "ExtendedAttribute" []); (Ty "term::Comma" [])])])]) (enc_Option (enc_Bracketed (enc_Punctuated (vt "term::Comma") enc_ExtendedAttribute)))) by oo ltac:(auto with onto). destruct (G v0 ltac:(lia) W0) as [x0 ->]. clear G. assert (G : Onto m (Ty "Identifier" []) enc_Identifier) by oo ltac:(auto with onto). destruct (G v1 ltac:(lia) W1) as [x1 ->]. clear G. apply on_term in W2; [|vm_compute; reflexivity]. subst v2. assert (G : Onto m (Ty "Identifier" []) enc_Identifier) by oo ltac:(auto with onto). destruct (G v3 ltac:(lia) W3) as [x3 ->]. clear G. apply on_term in W4; [|vm_compute; reflexivity]. subst v4. exists (mkImplementsDefinition x0 x1 x3). reflexivity.
Qed.
#[export] Hint Resolve onto_ImplementsDefinition : onto.
Lemma onto_Definition n : Onto n (Ty "Definition" []) enc_Definition.
Proof.
  intros v L W. ienum W c t x E. msize. 
    destruct E as [[= <- <-]|E].
    { assert (G : Onto m (Ty "CallbackDefinition" []) enc_CallbackDefinition) by oo ltac:(auto with onto). destruct (G x ltac:(lia) W) as [y ->]. clear G. exists (Definition_Callback y). reflexivity. } 
    destruct E as [[= <- <-]|E].
    { assert (G : Onto m (Ty "CallbackInterfaceDefinition" []) enc_CallbackInterfaceDefinition) by oo ltac:(auto with onto). destruct (G x ltac:(lia) W) as [y ->]. clear G. exists (Definition_CallbackInterface y). reflexivity. } 
    destruct E as [[= <- <-]|E].
    { assert (G : Onto m (Ty "InterfaceDefinition" []) enc_InterfaceDefinition) by oo ltac:(auto with onto). destruct (G x ltac:(lia) W) as [y ->]. clear G. exists (Definition_Interface y). reflexivity. } 
    destruct E as [[= <- <-]|E].
    { assert (G : Onto m (Ty "InterfaceMixinDefinition" []) enc_InterfaceMixinDefinition) by oo ltac:(auto with onto). destruct (G x ltac:(lia) W) as [y ->]. clear G. exists (Definition_InterfaceMixin y). reflexivity. } 
    destruct E as [[= <- <-]|E].
    { assert (G : Onto m (Ty "NamespaceDefinition" []) enc_NamespaceDefinition) by oo ltac:(auto with onto). destruct (G x ltac:(lia) W) as [y ->]. clear G. exists (Definition_Namespace y). reflexivity. } 
    destruct E as [[= <- <-]|E].
    { assert (G : Onto m (Ty "DictionaryDefinition" []) enc_DictionaryDefinition) by oo ltac:(auto with onto). destruct (G x ltac:(lia) W) as [y ->]. clear G. exists (Definition_Dictionary y). reflexivity. } 
    destruct E as [[= <- <-]|E].
    { assert (G : Onto m (Ty "PartialInterfaceDefinition" []) enc_PartialInterfaceDefinition) by oo ltac:(auto with onto). destruct (G x ltac:(lia) W) as [y ->]. clear G. exists (Definition_PartialInterface y). reflexivity. } 
    destruct E as [[= <- <-]|E].
    { assert (G : Onto m (Ty "PartialInterfaceMixinDefinition" []) enc_PartialInterfaceMixinDefinition) by oo ltac:(auto with onto). destruct (G x ltac:(lia) W) as [y ->]. clear G. exists (Definition_PartialInterfaceMixin y). reflexivity. } 
    destruct E as [[= <- <-]|E].
    { assert (G : Onto m (Ty "PartialDictionaryDefinition" []) enc_PartialDictionaryDefinition) by oo ltac:(auto with onto). destruct (G x ltac:(lia) W) as [y ->]. clear G. exists (Definition_PartialDictionary y). reflexivity. } 
    destruct E as [[= <- <-]|E].
    { assert (G : Onto m (Ty "PartialNamespaceDefinition" []) enc_PartialNamespaceDefinition) by oo ltac:(auto with onto). destruct (G x ltac:(lia) W) as [y ->]. clear G. exists (Definition_PartialNamespace y). reflexivity. } 
    destruct E as [[= <- <-]|E].
    { assert (G : Onto m (Ty "EnumDefinition" []) enc_EnumDefinition) by oo ltac:(auto with onto). destruct (G x ltac:(lia) W) as [y ->]. clear G. exists (Definition_Enum y). reflexivity. } 
    destruct E as [[= <- <-]|E].
    { assert (G : Onto m (Ty "TypedefDefinition" []) enc_TypedefDefinition) by oo ltac:(auto with onto). destruct (G x ltac:(lia) W) as [y ->]. clear G. exists (Definition_Typedef y). reflexivity. } 
    destruct E as [[= <- <-]|E].
    { assert (G : Onto m (Ty "IncludesStatementDefinition" []) enc_IncludesStatementDefinition) by oo ltac:(auto with onto). destruct (G x ltac:(lia) W) as [y ->]. clear G. exists (Definition_IncludesStatement y). reflexivity. } 
    destruct E as [[= <- <-]|E].
    { assert (G : Onto m (Ty "ImplementsDefinition" []) enc_ImplementsDefinition) by oo ltac:(auto with onto). destruct (G x ltac:(lia) W) as [y ->]. clear G. exists (Definition_Implements y). reflexivity. } 
    destruct E.
Qed.
#[export] Hint Resolve onto_Definition : onto.
