(** * The names in the source: what they mean by the [use] declarations is what the reader takes them for *)
From Coq Require Import String Ascii NArith Arith Bool List Lia.
From Verif Require Import Source Rust Crate SourceTests.
Import ListNotations.
Open Scope string_scope.
Open Scope list_scope.

(** ** The items of each file, and what it imports *)
(** Without [mod x;] (src/lib.rs:53-66). *)
Fixpoint no_mods (l : list tt) : list tt :=
  match l with
  | [] => []
  | t :: l' => match t, l' with
               | I p, I x :: P c :: l'' => if String.eqb p "mod" && Ascii.eqb c ";" then no_mods l'' else t :: no_mods l'
               | _, _ => t :: no_mods l'
               end
  end.
(** The paths of [use] declarations outside of the modules of tests: [use a::{b, c::d};] has the paths [a::b] and [a::c::d]. *)
Fixpoint use_paths (n : nat) (l : list tt) : list (list string) :=
  match n with
  | 0 => []
  | S n =>
      match segments (match l with P _ :: l' => l' | _ => l end) with
      | (s, []) => [s]
      | (s, [G Brace g]) => map (fun p => s ++ p) (flat_map (use_paths n) (angle_commas 0 [] g))
      | _ => []
      end
  end.
Fixpoint uses (l : list tt) : list (list string) :=
  match l with
  | I p :: l' => if String.eqb p "use" then use_paths 10 (fst (upto (is_p ";") l')) ++ uses l' else uses l'
  | _ :: l' => uses l'
  | [] => []
  end.
(** In the blocks of macros as well. *)
Fixpoint deep_uses (n : nat) (l : list tt) : list (list string) :=
  match n with
  | 0 => []
  | S n => uses l ++ flat_map (fun t => match t with G _ g => deep_uses n g | _ => [] end) l
  end.
(** One file: its imports, the imports in the blocks of its macros, its items before aliases are replaced. *)
Record file : Type := { file_name : string; imports : list (list string); inner : list (list string); items : list item }.
Definition read_file (f : string * string) : file :=
  let ts := tokens (snd f) in
  {| file_name := fst f; imports := uses ts;
     inner := flat_map (fun g => match g with G _ g => deep_uses 20 g | _ => [] end) (flat_map (fun t => match t with (I m, g) => if String.eqb m "macro_rules" then [g] else [] | _ => [] end) (combine ts (skipn 3 ts)));
     items := snd (read_items 3000 all_macros (fst f) [] (no_mods ts)) |}.
Definition files : list file := Eval vm_compute in map read_file sources.
Lemma files_read : files = map read_file sources.
Proof. vm_cast_no_check (eq_refl files). Qed.
(** Together they are the items of the crate. *)
Definition all_items : list item := flat_map items (tl files) ++ match files with f :: _ => items f | [] => [] end.
Lemma files_items : map (res_item all_items) all_items = crate_items.
Proof. vm_compute. reflexivity. Qed.
(** What an item declares. *)
Definition declares (i : item) : list string :=
  match i with IStruct _ n _ _ | IEnum _ n _ | IAlias n _ | IFn n _ _ => [n] | _ => [] end.
(** The names of types in a type, an expression, an item; and of the functions that are called. *)
Fixpoint ty_names (t : rty) : list string := match t with Ty x l => x :: flat_map ty_names l | TyTuple l => flat_map ty_names l end.
Fixpoint e_names (e : expr) : list string :=
  match e with
  | EVar _ | EStr _ | EChar _ | EBool _ | EDefault | EPath _ | ESelf _ | EAltEnd _ => []
  | ERecord l => flat_map (fun f => ty_names (snd f)) l
  | ETuple l | ECon _ l => l_names l
  | ENew t _ l => t :: l_names l
  | EParse t a => ty_names t ++ e_names a
  | ECall f l => f :: l_names l
  | EMethod a _ l => e_names a ++ l_names l
  | ENom _ a b | EBin _ a b | EDone a b | EOpt a b | EMany0 a b | ERecognize a b => e_names a ++ e_names b
  | EMatch a l => e_names a ++ a_names l
  | EClo _ a => e_names a
  | EBlock l a => s_names l ++ e_names a
  | EStep a b _ c | EAlt a b c | EMap a b c | ECond a b c | ESepList a b c | ESepList1 a b c | ETerminated a b c => e_names a ++ e_names b ++ e_names c
  end
with l_names (l : exprs) : list string := match l with Nil => [] | Cons e l' => e_names e ++ l_names l' end
with a_names (l : arms) : list string := match l with NoArm => [] | Arm _ e l' => e_names e ++ a_names l' end
with s_names (l : stmts) : list string :=
  match l with
  | SEnd => []
  | SLet _ e k | SSet _ e k | SAssert e k => e_names e ++ s_names k
  | SIf c b k | SIfLet _ c b k => e_names c ++ s_names b ++ s_names k
  end.
Definition names (i : item) : list string :=
  match i with
  | IStruct _ _ vs fs => filter (fun x => negb (existsb (String.eqb x) vs)) (flat_map (fun f => ty_names (snd f)) fs)
  | IEnum _ _ vs => flat_map (fun f => ty_names (snd f)) vs
  | IAlias _ t => ty_names t
  | IFn _ _ e => e_names e
  | IParse vs t _ e => filter (fun x => negb (existsb (String.eqb x) vs)) (ty_names t ++ e_names e)
  | IFrom a b _ e => ty_names a ++ ty_names b ++ e_names e
  | IBad _ => []
  end.

(** ** What a name means in a file *)
Definition Declares (f : file) (n : string) : Prop := exists i, In i (items f) /\ In n (declares i).
(** Names of the standard library that are in scope everywhere; and of nom. *)
Definition prelude : list string := ["Option"; "Box"; "Vec"; "str"; "bool"].
Inductive Means (f : file) (n : string) : file -> Prop :=
| Me_here : Declares f n -> Means f n f
| Me_use g q : In g files -> In q ["crate"; "self"] -> In [q; file_name g; n] (imports f) -> Declares g n -> Means f n g
| Me_block g h : In g files -> In h files -> In ["crate"; file_name g; n] (inner h) -> Declares g n -> Means f n g       (* in a macro of [h] *)
(* a term, by [term::] where the module is imported, or by [$crate::term::] in what [term!] gives *)
| Me_term g x : In g files -> file_name g = "term" -> n = ("term::" ++ x)%string -> Declares g n -> Means f n g.
Definition declares_b (f : file) (n : string) : bool := existsb (fun i => existsb (String.eqb n) (declares i)) (items f).
Lemma declares_ok f n : declares_b f n = true <-> Declares f n.
Proof.
  unfold declares_b, Declares. rewrite existsb_exists. split; intros (i & H & K); exists i; (split; [exact H|]).
  - apply existsb_exists in K. destruct K as (x & Hx & E). apply String.eqb_eq in E. subst. exact Hx.
  - apply existsb_exists. exists n. split; [exact K|apply String.eqb_refl].
Qed.
Definition path_eqb (p q : list string) : bool := if list_eq_dec string_dec p q then true else false.
Lemma path_In p l : existsb (path_eqb p) l = true -> In p l.
Proof. intros H. apply existsb_exists in H. destruct H as (q & Hq & E). unfold path_eqb in E. destruct (list_eq_dec string_dec p q); [subst; exact Hq|discriminate]. Qed.
Definition means_b (f : file) (n : string) (g : file) : bool :=
  declares_b g n &&
  (String.eqb (file_name f) (file_name g) || existsb (path_eqb ["crate"; file_name g; n]) (imports f) || existsb (path_eqb ["self"; file_name g; n]) (imports f) ||
   existsb (fun h => existsb (path_eqb ["crate"; file_name g; n]) (inner h)) files || String.eqb (file_name g) "term" && String.prefix "term::" n).
Fixpoint distinct (l : list string) : bool := match l with [] => true | x :: l' => negb (existsb (String.eqb x) l') && distinct l' end.
Lemma distinct_NoDup l : distinct l = true -> NoDup l.
Proof.
  induction l as [|x l IH]; intros H; constructor; cbn in H; apply andb_prop in H; destruct H as [H H']; [|auto]. intros K.
  assert (E : existsb (String.eqb x) l = true) by (apply existsb_exists; exists x; split; [exact K|apply String.eqb_refl]). rewrite E in H. discriminate H.
Qed.
Lemma names_once f g : In f files -> In g files -> file_name f = file_name g -> f = g.
Proof.
  assert (N : NoDup (map file_name files)).
  { apply distinct_NoDup. vm_compute. reflexivity. }
  revert N. generalize files. induction l as [|x l IH]; [intros _ []|]. intros N. inversion N as [|? ? Nx N']; subst. intros [->|F] [->|G] E; auto.
  - exfalso. apply Nx. rewrite E. apply in_map. exact G.
  - exfalso. apply Nx. rewrite <- E. apply in_map. exact F.
Qed.
Lemma prefix_app a : forall s, String.prefix a s = true -> exists x, s = (a ++ x)%string.
Proof.
  induction a as [|c a IH]; intros s H; [exists s; reflexivity|]. destruct s as [|d s]; [discriminate|]. cbn in H. destruct (ascii_dec c d); [|discriminate]. subst.
  destruct (IH _ H) as [x ->]. exists x. reflexivity.
Qed.
Lemma means_ok f n g : In f files -> In g files -> means_b f n g = true -> Means f n g.
Proof.
  intros F G H. apply andb_prop in H. destruct H as [D H]. apply declares_ok in D. rewrite !orb_true_iff in H. destruct H as [[[[H|H]|H]|H]|H].
  - apply String.eqb_eq in H. pose proof (names_once _ _ F G H). subst g. apply Me_here. exact D.
  - apply (Me_use f n g "crate"); [exact G|left; reflexivity|apply path_In; exact H|exact D].
  - apply (Me_use f n g "self"); [exact G|right; left; reflexivity|apply path_In; exact H|exact D].
  - apply existsb_exists in H. destruct H as (h & Hh & H). apply (Me_block f n g h); [exact G|exact Hh|apply path_In; exact H|exact D].
  - apply andb_prop in H. destruct H as [H1 H2]. apply String.eqb_eq in H1. destruct (prefix_app _ _ H2) as [x E]. apply (Me_term f n g x); assumption.
Qed.
Definition imported (f : file) (n : string) : bool := existsb (fun p => match rev p with x :: _ => String.eqb n x | [] => false end) (imports f).
Definition name_ok (f : file) (n : string) : bool :=
  existsb (String.eqb n) prelude && negb (existsb (fun g => declares_b g n) files) && negb (imported f n) ||
  existsb (path_eqb ["nom"; "character"; n]) (flat_map inner files) && negb (existsb (fun g => declares_b g n) files) && negb (imported f n) ||
  existsb (means_b f n) files.
Lemma all_ok : forallb (fun f => forallb (fun i => forallb (name_ok f) (names i)) (items f)) files = true.
Proof. vm_compute. reflexivity. Qed.
(** Every name is declared once. *)
Definition all_declared : list string := flat_map (fun f => flat_map declares (items f)) files.
Lemma declared_once : NoDup all_declared.
Proof. apply distinct_NoDup. vm_compute. reflexivity. Qed.
Lemma NoDup_owner {A B} (h : A -> list B) l : NoDup (flat_map h l) -> forall a b n, In a l -> In b l -> In n (h a) -> In n (h b) -> a = b.
Proof.
  induction l as [|x l IH]; intros N a b n; [intros []|]. cbn [flat_map] in N.
  assert (D : forall y, In y (h x) -> ~ In y (flat_map h l)).
  { clear -N. induction (h x) as [|z m IHm]; intros y; [intros []|]. cbn [app] in N. inversion N as [|? ? Nz N']; subst. intros [->|Hy].
    - intros K. apply Nz. apply in_or_app. right. exact K.
    - apply IHm; assumption. }
  assert (N' : NoDup (flat_map h l)).
  { clear -N. induction (h x) as [|z m IHm]; [exact N|]. inversion N; auto. }
  intros [->|Ha] [->|Hb] Na Nb; auto.
  - exfalso. apply (D n Na). apply in_flat_map. exists b. auto.
  - exfalso. apply (D n Nb). apply in_flat_map. exists a. auto.
  - exact (IH N' a b n Ha Hb Na Nb).
Qed.
Theorem one_owner f g n : In f files -> In g files -> Declares f n -> Declares g n -> f = g.
Proof.
  intros F G (i & Hi & Ni) (j & Hj & Nj). apply (NoDup_owner _ _ declared_once f g n F G); apply in_flat_map; [exists i|exists j]; auto.
Qed.
Theorem names_mean f i n : In f files -> In i (items f) -> In n (names i) ->
  (exists g, In g files /\ Means f n g /\ forall h, In h files -> Declares h n -> h = g) \/
  ((In n prelude \/ exists h, In h files /\ In ["nom"; "character"; n] (inner h)) /\ (forall h, In h files -> ~ Declares h n) /\ ~ exists p, In (p ++ [n]) (imports f)).
Proof.
  intros F Hi Hn. pose proof all_ok as E. rewrite forallb_forall in E. specialize (E _ F). cbn beta in E. rewrite forallb_forall in E. specialize (E _ Hi). cbn beta in E.
  rewrite forallb_forall in E. specialize (E _ Hn). unfold name_ok in E. rewrite !orb_true_iff, !andb_true_iff, !negb_true_iff in E.
  assert (Q : existsb (fun g => declares_b g n) files = false -> imported f n = false -> (forall h, In h files -> ~ Declares h n) /\ ~ exists p, In (p ++ [n]) (imports f)).
  { intros D M. split.
    - intros h Hh K. apply declares_ok in K. assert (X : existsb (fun g => declares_b g n) files = true) by (apply existsb_exists; exists h; auto). rewrite X in D. discriminate D.
    - intros (p & Hp). assert (X : imported f n = true) by (apply existsb_exists; exists (p ++ [n]); split; [exact Hp|rewrite rev_unit; apply String.eqb_refl]). rewrite X in M. discriminate M. }
  destruct E as [[[[P D] M]|[[P D] M]]|P].
  - right. split; [left|exact (Q D M)]. apply existsb_exists in P. destruct P as (x & Hx & Ex). apply String.eqb_eq in Ex. subst. exact Hx.
  - right. split; [right|exact (Q D M)]. apply path_In, in_flat_map in P. exact P.
  - left. apply existsb_exists in P. destruct P as (g & Hg & P). exists g. split; [exact Hg|]. split; [apply means_ok; assumption|].
    intros h Hh Dh. apply andb_prop in P. destruct P as [P _]. apply declares_ok in P. exact (one_owner _ _ _ Hh Hg Dh P).
Qed.
(** What is imported from a module of the crate is declared there. *)
Definition imports_b : bool := forallb (fun f => forallb (fun p =>
  match p with
  | [q; m; n] => negb (existsb (String.eqb q) ["crate"; "self"]) || existsb (fun g => String.eqb (file_name g) m && declares_b g n) files
  | _ => true
  end) (imports f)) files.
Lemma imports_ok : imports_b = true.
Proof. vm_compute. reflexivity. Qed.
Theorem imports_declared f q m n : In f files -> In q ["crate"; "self"] -> In [q; m; n] (imports f) -> exists g, In g files /\ file_name g = m /\ Declares g n.
Proof.
  intros F Q H. pose proof imports_ok as E. unfold imports_b in E. rewrite forallb_forall in E. specialize (E _ F). cbn beta in E. rewrite forallb_forall in E. specialize (E _ H). cbn beta iota in E.
  apply orb_prop in E. destruct E as [E|E].
  - exfalso. assert (X : existsb (String.eqb q) ["crate"; "self"] = true) by (apply existsb_exists; exists q; split; [exact Q|apply String.eqb_refl]). rewrite X in E. discriminate E.
  - apply existsb_exists in E. destruct E as (g & G & E). apply andb_prop in E. destruct E as [E1 E2]. exists g. split; [exact G|]. split; [apply String.eqb_eq; exact E1|apply declares_ok; exact E2].
Qed.
