(** * Nothing in the declared types is left over

    Every variant of every enum, every struct and both cases of every optional field that src/ declares (as read from the source
    text, Crate.v) occur in what [weedle::parse] returns, with the exception of four structs that occur in no
    result at all. Every type that is used has values, and every type of lists has empty and longer ones. *)
From Coq Require Import String Ascii NArith Arith Bool List Lia.
From Verif Require Import Rust Crate Interp Embed Faithful SourceLex SourceTypes SourceProps SourceData SourceWt SourceOnto SourceFacts.
From Verif Require Import Nom Lex Ast Grammar Spec.
Import ListNotations.
Open Scope string_scope.
Open Scope list_scope.

(** [Inside w v]: the value [w] is a part of the value [v]. *)
Inductive Inside (w : value) : value -> Prop :=
| In_self : Inside w w
| In_tuple l v : In v l -> Inside w v -> Inside w (VTup l)
| In_vec l v : In v l -> Inside w v -> Inside w (VVec l)
| In_con c l v : In v l -> Inside w v -> Inside w (VCon c l)
| In_field t c fs f v : In (f, v) fs -> Inside w v -> Inside w (VData t c fs).

(** The parts that are structs or variants. *)
Fixpoint parts (v : value) : list value :=
  match v with
  | VTup l | VVec l | VCon _ l => flat_map parts l
  | VData _ _ fs => v :: flat_map (fun f => parts (snd f)) fs
  | _ => []
  end.
Lemma sz_in x l n : In x l -> S (list_sum (map sz l)) <= S n -> sz x <= n.
Proof. induction l as [|y l IH]; [intros []|]. cbn [map list_sum fold_right]. change (fold_right plus 0 (map sz l)) with (list_sum (map sz l)). intros [->|H] L; [lia|]. apply IH in H; lia. Qed.
Lemma sz_in_field (f : string * value) fs n : In f fs -> S (list_sum (map (fun f => sz (snd f)) fs)) <= S n -> sz (snd f) <= n.
Proof. intros H L. apply (sz_in (snd f) (map snd fs)); [apply in_map; auto|]. rewrite map_map. exact L. Qed.
Lemma parts_Inside w : forall n v, sz v <= n -> In w (parts v) -> Inside w v.
Proof.
  induction n as [|n IH]; intros v Hn H. { destruct v; cbn in Hn; lia. }
  destruct v as [s|c|b|l|l|c l|t c fs|s|e|k]; cbn [parts] in H; try contradiction; cbn [sz] in Hn.
  - apply in_flat_map in H as (x & Hx & H). apply (In_tuple _ _ x Hx), IH; auto. apply (sz_in x l); auto.
  - apply in_flat_map in H as (x & Hx & H). apply (In_vec _ _ x Hx), IH; auto. apply (sz_in x l); auto.
  - apply in_flat_map in H as (x & Hx & H). apply (In_con _ _ _ x Hx), IH; auto. apply (sz_in x l); auto.
  - destruct H as [->|H]; [constructor|]. apply in_flat_map in H as ([f x] & Hx & H).
    apply (In_field _ _ _ _ f x Hx), IH; auto. apply (sz_in_field (f, x) fs); auto.
Qed.

(** ** A text that has everything *)
Definition sample : text := str "
[NoArgs, ArgList(long a), NamedArgList=N(optional long a = 1, any... b), IdentList=(A, B), Ident=X, Str=""s"", Wild=*]
callback C = undefined ([X] optional [Y] (long or [Z] DOMString or (short or byte)?) x = 0x1F, [Q] (long or float)? ... y);
callback C2 = any ();
[A] callback interface CI : P { };
callback interface CJ { };
[A] interface I : J {
  [A] const boolean c1 = true;
  const unsigned long long? c2 = -07;
  const unrestricted double c3 = 1.5e3;
  const float c3a = -Infinity;
  const float c3b = Infinity;
  const unrestricted float? c3c = NaN;
  const byte c4 = null;
  const octet c5 = 0;
  const Other c6 = 12;
  const unsigned short c7 = 1;
  [A] stringifier readonly attribute [B] DOMString a1;
  inherit attribute any a2;
  static attribute Promise<undefined> a3;
  attribute long a4;
  [A] constructor(long x);
  constructor();
  [A] stringifier getter any op1(double d, optional boolean a = false, optional any b = [], optional any c = {}, optional any d = null,
      optional DOMString e = ""x"", optional float f = 1.0, optional any g);
  static setter undefined op2();
  deleter undefined (any a);
  legacycaller undefined op4(long a);
  unsigned long op5();
  [A] iterable<long>;
  iterable<long>;
  [A] iterable<[B] DOMString, long>;
  iterable<DOMString, long>;
  [A] async iterable<long>(long a);
  async iterable<long>;
  [A] async iterable<DOMString, long>(long a);
  async iterable<DOMString, long>;
  [A] readonly maplike<DOMString, long>;
  maplike<DOMString, long>;
  [A] readonly setlike<DOMString>;
  setlike<DOMString>;
  [A] stringifier;
  stringifier;
};
interface I2 { };
[A] interface mixin M {
  const long c = 1;
  [A] stringifier any op(long a);
  any ();
  [A] stringifier readonly attribute any a;
  attribute any a;
  stringifier;
};
interface mixin M2 { };
[A] namespace N { [A] const long c = 1; const long d = 1; [A] any f(); any (); [A] readonly attribute any x; readonly attribute any y; };
namespace N2 { };
[A] dictionary D : E { [A] required long a; DOMString b = ""x""; };
dictionary D2 { };
[A] partial interface PI { };
partial interface PI { };
[A] partial interface mixin PM { };
partial interface mixin PM { };
[A] partial dictionary PD { };
partial dictionary PD { };
[A] partial namespace PN { };
partial namespace PN { };
[A] enum En { ""a"", ""b"" };
enum En { ""a"" };
[A] typedef any T;
typedef any T;
[A] A includes B;
A includes B;
[A] A implements B;
A implements B;
typedef (Promise<any> or long? or long long or unrestricted float? or boolean? or byte? or octet? or ByteString? or DOMString? or USVString?
  or sequence<any>? or object? or symbol? or Error? or ArrayBuffer? or DataView? or Int8Array? or Int16Array? or Int32Array? or Uint8Array?
  or Uint16Array? or Uint32Array? or Uint8ClampedArray? or Float32Array? or Float64Array? or ArrayBufferView? or BufferSource?
  or FrozenArray<long>? or record<ByteString, long>? or record<DOMString, long> or record<USVString, long> or record<long, long>
  or unsigned short or short or unrestricted double or double or float or Identifier?) U;
[] typedef () V;
[I=()] typedef any V;
".

(** ** The result for it *)
Definition sample_value : value :=
  Eval vm_compute in match parse sample with Parsed defs => VVec (map enc_Definition defs) | _ => VStr [] end.
Definition ty_result : rty := Ty "Vec" [Ty "Definition" []].
Lemma sample_run : exists N, forall n, N <= n -> call n (CFn "parse") [VStr sample] = Val (VCon "Ok" [sample_value]).
Proof.
  destruct (parse_source sample) as [N HN]. exists N. intros n Hn. rewrite (HN n Hn).
  assert (E : match parse sample with Parsed defs => VVec (map enc_Definition defs) | _ => VStr [] end = sample_value) by (vm_compute; reflexivity).
  destruct (parse sample) as [defs|e| |]; try discriminate E. cbn [outcome_answer]. unfold enc_Vec. rewrite E. reflexivity.
Qed.

(** Variants, structs, optional fields. *)
Definition is_data (t c : string) (v : value) : bool := match v with VData t' c' _ => String.eqb t t' && String.eqb c c' | _ => false end.
Definition sample_parts : list value := parts sample_value.
Lemma sample_parts_Inside w : In w sample_parts -> Inside w sample_value.
Proof.
  apply (parts_Inside w (sz sample_value)). auto.
Qed.
Lemma has_data t c : existsb (is_data t c) sample_parts = true -> exists fs, Inside (VData t c fs) sample_value.
Proof.
  intros H. apply existsb_exists in H as (v & Hv & H). destruct v as [s|k|b|l|l|k l|t' c' fs|s|e|k]; try discriminate H. apply andb_true_iff in H as [H1 H2].
  apply String.eqb_eq in H1, H2. subst. exists fs. apply sample_parts_Inside. exact Hv.
Qed.
Theorem variants_live ds t vs c a : In (IEnum ds t vs) crate_items -> In (c, a) vs -> exists fs, Inside (VData t c fs) sample_value.
Proof.
  intros H Hc. apply has_data.
  assert (E : forallb (fun i => match i with IEnum _ t vs => forallb (fun v => existsb (is_data t (fst v)) sample_parts) vs | _ => true end) crate_items = true)
    by (vm_compute; reflexivity).
  rewrite forallb_forall in E. specialize (E _ H). cbn beta iota in E. rewrite forallb_forall in E. apply (E _ Hc).
Qed.
(** Of the terminals, the sign and the dot of numbers have structs that are never used; [BooleanLit] keeps a [bool]. *)
Definition unused : list string := ["term::Minus"; "term::Dot"; "term::True"; "term::False"].
Theorem structs_live ds t vs fs : In (IStruct ds t vs fs) crate_items -> ~ In t unused -> exists fs', Inside (VData t "" fs') sample_value.
Proof.
  intros H Ht. apply has_data.
  assert (E : forallb (fun i => match i with IStruct _ t _ _ => existsb (String.eqb t) unused || existsb (is_data t "") sample_parts | _ => true end) crate_items = true)
    by (vm_compute; reflexivity).
  rewrite forallb_forall in E. specialize (E _ H). cbn beta iota in E. apply orb_true_iff in E as [E|E]; [|exact E].
  exfalso. apply existsb_exists in E as (x & Hx & E). apply String.eqb_eq in E. subst. auto.
Qed.
Definition has_field (t f : string) (q : value -> bool) (v : value) : bool :=
  match v with VData t' c fs => String.eqb t t' && String.eqb c "" && existsb (fun x => String.eqb f (fst x) && q (snd x)) fs | _ => false end.
Lemma has_field_Inside t f q : existsb (has_field t f q) sample_parts = true ->
  exists fs x, Inside (VData t "" fs) sample_value /\ In (f, x) fs /\ q x = true.
Proof.
  intros H. apply existsb_exists in H as (v & Hv & H). destruct v as [s|k|b|l|l|k l|t' c' fs|s|e|k]; try discriminate H. cbn [has_field] in H.
  apply andb_true_iff in H as [H H3]. apply andb_true_iff in H as [H1 H2].
  apply String.eqb_eq in H1, H2. subst. apply existsb_exists in H3 as ([f' x] & Hf & H3). apply andb_true_iff in H3 as [H3 H4].
  apply String.eqb_eq in H3. cbn [fst snd] in *. subst. exists fs, x. split; [|auto]. apply sample_parts_Inside. exact Hv.
Qed.
Definition is_some (v : value) : bool := match v with VCon c [_] => String.eqb c "Some" | _ => false end.
Definition is_none (v : value) : bool := match v with VCon c [] => String.eqb c "None" | _ => false end.
Theorem options_live ds t vs fs f a : In (IStruct ds t vs fs) crate_items -> In (f, Ty "Option" [a]) fs ->
  (exists l x, Inside (VData t "" l) sample_value /\ In (f, VCon "Some" [x]) l) /\
  (exists l, Inside (VData t "" l) sample_value /\ In (f, VCon "None" []) l).
Proof.
  intros H Hf.
  assert (E : forallb (fun i => match i with
      | IStruct _ t _ fs => forallb (fun f => match snd f with Ty "Option" _ => existsb (has_field t (fst f) is_some) sample_parts &&
          existsb (has_field t (fst f) is_none) sample_parts | _ => true end) fs
      | _ => true end) crate_items = true) by (vm_compute; reflexivity).
  rewrite forallb_forall in E. specialize (E _ H). cbn beta iota in E. rewrite forallb_forall in E. specialize (E _ Hf). cbn beta iota delta [fst snd] in E.
  apply andb_true_iff in E as [E1 E2]. apply has_field_Inside in E1 as (l1 & x1 & A1 & B1 & C1). apply has_field_Inside in E2 as (l2 & x2 & A2 & B2 & C2). split.
  - destruct x1 as [s|k|b|l|l|k [|y [|? ?]]|t' c' l|s|e|k]; try discriminate C1. apply String.eqb_eq in C1. subst. eauto.
  - destruct x2 as [s|k|b|l|l|k [|y ?]|t' c' l|s|e|k]; try discriminate C2. apply String.eqb_eq in C2. subst. eauto.
Qed.

(** ** Types *)
(** The types of the parts of results. *)
Inductive Uses : rty -> Prop :=
| U_result : Uses ty_result
| U_arg c t : In c ["Option"; "Box"; "Vec"] -> Uses (Ty c [t]) -> Uses t
| U_tuple l t : Uses (TyTuple l) -> In t l -> Uses t
| U_field ds n vs fields args f t : In (IStruct ds n vs fields) crate_items -> Uses (Ty n args) -> In (f, t) fields -> Uses (subst (combine vs args) t)
| U_variant ds n vs c t : In (IEnum ds n vs) crate_items -> Uses (Ty n []) -> In (c, t) vs -> Uses t.
(** [PartOf w u v t]: the value [v] of type [t] has the part [w] of type [u]. *)
Inductive PartOf (w : value) (u : rty) : value -> rty -> Prop :=
| Pt_self : PartOf w u w u
| Pt_some v t : PartOf w u v t -> PartOf w u (VCon "Some" [v]) (Ty "Option" [t])
| Pt_box v t : PartOf w u v t -> PartOf w u (VCon "Box::new" [v]) (Ty "Box" [t])
| Pt_vec l v t : In v l -> PartOf w u v t -> PartOf w u (VVec l) (Ty "Vec" [t])
| Pt_tuple l ts v t : In (v, t) (combine l ts) -> PartOf w u v t -> PartOf w u (VTup l) (TyTuple ts)
| Pt_field ds n vs fields args fs f v t : In (IStruct ds n vs fields) crate_items -> In (f, v) fs -> In (f, t) fields ->
    PartOf w u v (subst (combine vs args) t) -> PartOf w u (VData n "" fs) (Ty n args)
| Pt_variant ds n vs c t x : In (IEnum ds n vs) crate_items -> In (c, t) vs -> PartOf w u x t -> PartOf w u (VData n c [("0", x)]) (Ty n []).

(** The types that [t] is made of. *)
Definition components (t : rty) : list rty :=
  match t with
  | TyTuple l => l
  | Ty n args =>
      (match args with [a] => if existsb (String.eqb n) ["Option"; "Box"; "Vec"] then [a] else [] | _ => [] end) ++
      flat_map (fun i => match i with
        | IStruct _ m vs fields => if String.eqb n m then map (fun f => subst (combine vs args) (snd f)) fields else []
        | IEnum _ m vs => match args with [] => if String.eqb n m then map snd vs else [] | _ => [] end
        | _ => [] end) crate_items
  end.
Fixpoint closure (fuel : nat) (done todo : list rty) : list rty :=
  match fuel, todo with
  | S f, t :: rest => if existsb (rty_eqb t) done then closure f done rest else closure f (t :: done) (components t ++ rest)
  | _, _ => done
  end.
Definition types : list rty := Eval vm_compute in closure 2000 [] [ty_result].
Fixpoint rsz (t : rty) : nat := match t with Ty _ l | TyTuple l => S (list_sum (map rsz l)) end.
Lemma rty_eqb_eq n : forall t u, rsz t <= n -> rty_eqb t u = true -> t = u.
Proof.
  induction n as [|n IH]; intros t u Hn H; [destruct t; cbn in Hn; lia|].
  assert (HL : forall l m, S (list_sum (map rsz l)) <= S n -> (fix eqs l m := match l, m with [], [] => true | x :: l', y :: m' => rty_eqb x y && eqs l' m' | _, _ => false end) l m = true -> l = m).
  { induction l as [|x l IHl]; intros [|y m] L K; try discriminate K; auto. apply andb_true_iff in K as [K1 K2].
    change (S (rsz x + list_sum (map rsz l)) <= S n) in L. f_equal; [apply IH; auto; lia|apply IHl; auto; lia]. }
  destruct t as [x l|l], u as [y m|m]; try discriminate H.
  - cbn [rty_eqb] in H. apply andb_true_iff in H as [H1 H2]. apply String.eqb_eq in H1. subst. f_equal. apply HL; auto.
  - f_equal. apply HL; auto.
Qed.
Lemma existsb_rty t l : existsb (rty_eqb t) l = true -> In t l.
Proof. intros H. apply existsb_exists in H as (x & Hx & E). apply (rty_eqb_eq (rsz t)) in E; auto. subst. exact Hx. Qed.
Lemma types_closed t u : In t types -> In u (components t) -> In u types.
Proof.
  intros H Hu. assert (E : forallb (fun t => forallb (fun u => existsb (rty_eqb u) types) (components t)) types = true) by (vm_compute; reflexivity).
  rewrite forallb_forall in E. specialize (E _ H). cbn beta in E. rewrite forallb_forall in E. apply existsb_rty, (E _ Hu).
Qed.
Lemma Uses_types t : Uses t -> In t types.
Proof.
  induction 1 as [|c t Hc _ IH|l t _ IH Ht|ds n vs fields args f t Hi _ IH Hf|ds n vs c t Hi _ IH Hc].
  - apply existsb_rty. vm_compute. reflexivity.
  - apply (types_closed _ _ IH). cbn [components]. apply in_or_app. left.
    destruct Hc as [<-|[<-|[<-|[]]]]; left; reflexivity.
  - apply (types_closed _ _ IH). exact Ht.
  - apply (types_closed _ _ IH). cbn [components]. apply in_or_app. right. apply in_flat_map. exists (IStruct ds n vs fields). split; auto.
    rewrite String.eqb_refl. apply in_map_iff. exists (f, t). auto.
  - apply (types_closed _ _ IH). cbn [components]. apply in_or_app. right. apply in_flat_map. exists (IEnum ds n vs). split; auto.
    rewrite String.eqb_refl. apply in_map_iff. exists (c, t). auto.
Qed.

(** Parts with their types. *)
Fixpoint tparts (v : value) (t : rty) {struct v} : list (value * rty) :=
  (v, t) ::
  match v with
  | VCon c [x] => match t with Ty n [a] => if (String.eqb c "Some" && String.eqb n "Option") || (String.eqb c "Box::new" && String.eqb n "Box") then tparts x a else [] | _ => [] end
  | VVec l => match t with Ty n [a] => if String.eqb n "Vec" then flat_map (fun x => tparts x a) l else [] | _ => [] end
  | VTup l => match t with
              | TyTuple ts => (fix go l ts := match l, ts with x :: l', a :: ts' => tparts x a ++ go l' ts' | _, _ => [] end) l ts
              | _ => [] end
  | VData n c fs =>
      match t with
      | Ty m args => if String.eqb n m then
          if String.eqb c "" then
            match lookup n structs with
            | Some (_, (vs, fields)) => flat_map (fun f => match lookup (fst f) fields with Some a => tparts (snd f) (subst (combine vs args) a) | None => [] end) fs
            | None => [] end
          else match lookup n enum_decls with
            | Some (_, vs) => match args, fs, lookup c vs with [], [(f, x)], Some a => if String.eqb f "0" then tparts x a else [] | _, _, _ => [] end
            | None => [] end
        else []
      | _ => [] end
  | _ => []
  end.
Lemma tparts_Part w u n : forall v t, sz v <= n -> In (w, u) (tparts v t) -> PartOf w u v t.
Proof.
  induction n as [|n IH]; intros v t Hn H; [destruct v; cbn in Hn; lia|].
  destruct v as [s|c|b|l|l|c l|m c fs|s|e|k]; cbn [tparts] in H; cbn [sz] in Hn; (destruct H as [[= <- <-]|H]; [constructor|]); try contradiction.
  - destruct t as [|ts]; [contradiction|].
    assert (K : exists v t, In (v, t) (combine l ts) /\ In (w, u) (tparts v t)).
    { clear Hn IH. revert ts H. induction l as [|x l IHl]; intros [|a ts] H; try contradiction. apply in_app_or in H as [H|H].
      - exists x, a. cbn. auto.
      - apply IHl in H as (v & t & A & B). exists v, t. cbn. auto. }
    destruct K as (v & t & A & B). apply (Pt_tuple _ _ _ _ v t A). apply IH; auto. apply (sz_in v l); auto. eapply in_combine_l; eauto.
  - destruct t as [m [|a [|]]|]; try contradiction. destruct (String.eqb m "Vec") eqn:E; [|contradiction]. apply String.eqb_eq in E. subst.
    apply in_flat_map in H as (x & Hx & H). apply (Pt_vec _ _ _ x); auto. apply IH; auto. apply (sz_in x l); auto.
  - destruct l as [|x [|]]; try contradiction. destruct t as [m [|a [|]]|]; try contradiction.
    destruct ((String.eqb c "Some" && String.eqb m "Option") || (String.eqb c "Box::new" && String.eqb m "Box")) eqn:E; [|contradiction].
    assert (L : sz x <= n) by (apply (sz_in x [x]); cbn; auto).
    apply orb_true_iff in E as [E|E]; apply andb_true_iff in E as [E1 E2]; apply String.eqb_eq in E1, E2; subst; constructor; auto.
  - destruct t as [m' args|]; [|contradiction]. destruct (String.eqb m m') eqn:E; [|contradiction]. apply String.eqb_eq in E. subst m'.
    destruct (String.eqb c "") eqn:Ec.
    + apply String.eqb_eq in Ec. subst. destruct (lookup m structs) as [[ds [vs fields]]|] eqn:L; [|contradiction].
      apply in_flat_map in H as ([f x] & Hf & H). cbn [fst snd] in H. destruct (lookup f fields) as [a|] eqn:La; [|contradiction].
      eapply Pt_field; [apply struct_In; eauto|exact Hf|apply lookup_In; eauto|]. apply IH; auto. apply (sz_in_field (f, x) fs); auto.
    + destruct (lookup m enum_decls) as [[ds vs]|] eqn:L; [|contradiction]. destruct args; [|contradiction].
      destruct fs as [|[f x] [|]]; try contradiction. destruct (lookup c vs) as [a|] eqn:La; [|contradiction].
      destruct (String.eqb f "0") eqn:E0; [|contradiction]. apply String.eqb_eq in E0. subst.
      eapply Pt_variant; [apply enum_In; eauto|apply lookup_In; eauto|]. apply IH; auto. apply (sz_in_field ("0", x) [("0", x)]); cbn; auto.
Qed.
Definition sample_tparts : list (value * rty) := tparts sample_value ty_result.
Lemma has_part (q : value -> bool) u : existsb (fun p => rty_eqb (snd p) u && q (fst p)) sample_tparts = true -> exists w, PartOf w u sample_value ty_result /\ q w = true.
Proof.
  intros H. apply existsb_exists in H as ([w t] & Hp & H). cbn [fst snd] in H. apply andb_true_iff in H as [H1 H2].
  apply (rty_eqb_eq (rsz t)) in H1; auto. subst. exists w. split; auto. apply (tparts_Part _ _ (sz sample_value)); auto.
Qed.
(** Every type that is used has a value; every type of lists has an empty and a longer one. *)
Theorem types_live u : Uses u -> exists w, PartOf w u sample_value ty_result.
Proof.
  intros H. apply Uses_types in H.
  assert (E : forallb (fun u => existsb (fun p => rty_eqb (snd p) u && true) sample_tparts) types = true) by (vm_compute; reflexivity).
  rewrite forallb_forall in E. specialize (E _ H). apply (has_part (fun _ => true)) in E as (w & Hw & _). eauto.
Qed.
Definition is_nil (v : value) : bool := match v with VVec [] => true | _ => false end.
Definition is_more (v : value) : bool := match v with VVec (_ :: _ :: _) => true | _ => false end.
Theorem lists_live t : Uses (Ty "Vec" [t]) ->
  (exists x y l, PartOf (VVec (x :: y :: l)) (Ty "Vec" [t]) sample_value ty_result) /\
  (t = Ty "StringLit" [] \/ t = Ty "Definition" [] \/ PartOf (VVec []) (Ty "Vec" [t]) sample_value ty_result).
Proof.
  intros H. apply Uses_types in H.
  assert (E : forallb (fun u => match u with Ty n [t] => negb (String.eqb n "Vec") || existsb (fun p => rty_eqb (snd p) u && is_more (fst p)) sample_tparts &&
      (rty_eqb t (Ty "StringLit" []) || (rty_eqb t (Ty "Definition" []) || existsb (fun p => rty_eqb (snd p) u && is_nil (fst p)) sample_tparts)) | _ => true end) types = true)
    by (vm_compute; reflexivity).
  rewrite forallb_forall in E. specialize (E _ H). cbn beta iota in E. rewrite String.eqb_refl in E. cbn [negb orb] in E. apply andb_true_iff in E as [E1 E2]. split.
  - apply has_part in E1 as (w & Hw & K). destruct w as [s|k|b|l|[|x [|y l]]|k l|n c l|s|e|k]; try discriminate K. eauto.
  - apply orb_true_iff in E2 as [E2|E2]; [left; apply (rty_eqb_eq _ _ _ (le_n _) E2)|right].
    apply orb_true_iff in E2 as [E2|E2]; [left; apply (rty_eqb_eq _ _ _ (le_n _) E2)|right].
    apply has_part in E2 as (w & Hw & K). destruct w as [s|k|b|l|[|x l]|k l|n c l|s|e|k]; try discriminate K. exact Hw.
Qed.

(** ** What is not used *)
Lemma Forall2_In A B (R : A -> B -> Prop) l m x : Forall2 R l m -> In x l -> exists y, In y m /\ R x y.
Proof. induction 1 as [|a b l m H _ IH]; [intros []|]. intros [->|Hx]; [exists b; cbn; auto|]. destruct (IH Hx) as (y & Hy & K). exists y. cbn. auto. Qed.
Lemma Inside_Uses n c fs v : Inside (VData n c fs) v -> forall t, wt v t -> Uses t -> exists args, Uses (Ty n args).
Proof.
  induction 1 as [|l v Hv _ IH|l v Hv _ IH|k l v Hv _ IH|m k l f v Hf _ IH]; intros t Hw Hu.
  - inversion Hw; subst; eauto.
  - inversion Hw as [| | | | | |l' ts HF| |]; subst. destruct (Forall2_In _ _ _ _ _ _ HF Hv) as (u & Hu' & K). apply (IH u K). eapply U_tuple; eauto.
  - inversion Hw as [| | | | |l' u HF| | |]; subst. rewrite Forall_forall in HF. apply (IH u (HF _ Hv)). eapply (U_arg "Vec"); eauto. cbn; auto.
  - inversion Hw as [| | |x u K|x u K| | | |]; subst; [destruct Hv|..]; destruct Hv as [->|[]]; apply (IH u K).
    + eapply (U_arg "Option"); eauto. cbn; auto.
    + eapply (U_arg "Box"); eauto. cbn; auto.
  - inversion Hw as [| | | | | | |ds m' vs fields args fs' Hi Hl HF|ds m' vs k' u x Hi Hk K]; subst.
    + destruct (Forall2_In _ _ _ _ _ _ HF Hf) as ([f' u] & Hu' & E & K). cbn [fst snd] in E, K. subst f'. apply (IH _ K). eapply U_field; eauto.
    + destruct Hf as [[= <- <-]|[]]. apply (IH u K). eapply U_variant; eauto.
Qed.
Theorem structs_dead raw : exists N, forall n v t c fs, N <= n -> call n (CFn "parse") [VStr raw] = Val (VCon "Ok" [v]) -> In t unused -> ~ Inside (VData t c fs) v.
Proof.
  destruct (parse_typed raw) as [N HN]. exists N. intros n v t c fs Hn E Ht Hi. specialize (HN n v Hn E).
  destruct (Inside_Uses _ _ _ _ Hi _ HN U_result) as [args HU]. apply Uses_types in HU.
  assert (K : forallb (fun u => match u with Ty n _ => negb (existsb (String.eqb n) unused) | _ => true end) types = true) by (vm_compute; reflexivity).
  rewrite forallb_forall in K. specialize (K _ HU). cbn beta iota in K. apply negb_true_iff in K.
  assert (K' : existsb (String.eqb t) unused = true) by (apply existsb_exists; exists t; split; [exact Ht|apply String.eqb_refl]). congruence.
Qed.
