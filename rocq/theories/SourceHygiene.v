(** * The macros of the crate keep to their own variables

    rustc keeps the local variables of a macro apart from those of its arguments (hygiene); the reader of Rust.v does not.  Here the crate is read once
    more with macros whose variables have names that occur nowhere else, and the result is the same but for the names of bound variables. *)
From Coq Require Import String Ascii NArith Arith Bool List Lia.
From Verif Require Import Nom Lex Source Rust Crate Interp SourceTests SourceNames Live.
From Verif Require Faithful.
Import ListNotations.
Open Scope string_scope.
Open Scope list_scope.

(** ** The variables that a template binds *)
Definition lower (s : string) : bool := match s with String c _ => between "a" "z" c || Ascii.eqb c "_" | EmptyString => false end.
(** The variables of a pattern: its identifiers in lower case. *)
Fixpoint pattern_vars (n : nat) (l : list mpat) : list string :=
  match n with
  | 0 => []
  | S n => flat_map (fun p => match p with
                              | MTok (I x) => if lower x && negb (String.eqb x "mut") then [x] else []
                              | MGroup _ l | MRep l _ _ => pattern_vars n l
                              | _ => [] end) l
  end.
Definition is_tok (c : ascii) (p : mpat) : bool := match p with MTok t => is_p c t | _ => false end.
Fixpoint before_eq (l : list mpat) : list mpat := match l with [] => [] | p :: l' => if is_tok "=" p then [] else p :: before_eq l' end.
(** [let pattern =], [Con(pattern) =>], [|pattern|], [x: ...] in the parameters of a function and in [do_parse!]. *)
Fixpoint binders (n : nat) (l : list mpat) : list string :=
  match n with
  | 0 => []
  | S n =>
      match l with
      | [] => []
      | MTok (I x) :: l' =>
          (if String.eqb x "let" then pattern_vars 5 (before_eq l') else
           match l' with
           | MGroup Paren g :: MTok (P a) :: MTok (P b) :: _ => if Ascii.eqb a "=" && Ascii.eqb b ">" then pattern_vars 5 g else []
           | MTok (P a) :: MTok (P b) :: _ => []
           | MTok (P a) :: _ => if Ascii.eqb a ":" && lower x then [x] else []
           | _ => []
           end)
          ++ (match l' with MTok (P a) :: MTok (P b) :: _ => if Ascii.eqb a ":" && Ascii.eqb b "&" then [x] else [] | _ => [] end)
          ++ binders n l'
      | MTok (P a) :: MTok (I x) :: MTok (P b) :: l' => (if Ascii.eqb a "|" && Ascii.eqb b "|" then [x] else []) ++ binders n (MTok (I x) :: MTok (P b) :: l')
      | MGroup _ g :: l' | MRep g _ _ :: l' => binders n g ++ binders n l'
      | _ :: l' => binders n l'
      end
  end.

(** ** Macros with names of their own *)
(** The apostrophe is in no identifier of the source. *)
Fixpoint ticks (k : nat) : string := match k with 0 => "" | S k => "'" ++ ticks k end.
(** The variable [x] of rule [r] of the macro [m], in the copy [k] of the macro. *)
Definition mark (m : string) (k r : nat) (x : string) : string := (x ++ "'" ++ m ++ ticks (S k) ++ "," ++ ticks r)%string.
(** A template: its variables are marked, the macro itself becomes the next copy. *)
Fixpoint own (m : string) (k r : nat) (bs : list string) (p : mpat) : mpat :=
  let fix list l := match l with
    | [] => []
    | p :: l' => match p, l' with
                 | MTok (I x), MTok (P a) :: _ => if String.eqb x m && Ascii.eqb a "!" then MTok (I (m ++ ticks (S k))) else own m k r bs p
                 | _, _ => own m k r bs p
                 end :: list l'
    end in
  match p with
  | MTok (I x) => if existsb (String.eqb x) bs then MTok (I (mark m k r x)) else p
  | MTok _ | MVar _ _ => p
  | MGroup d l => MGroup d (list l)
  | MRep l sep o => MRep (list l) sep o
  end.
Definition own_template (m : string) (k r : nat) (t : list mpat) : list mpat :=
  match own m k r (binders (pats_size t) t) (MGroup NoDelim t) with MGroup _ t' => t' | _ => [] end.
Definition own_rules (m : string) (k : nat) (rs : list rule) : list rule :=
  map (fun p => let '(r, (pat, t)) := p in (pat, own_template m k r t)) (combine (seq 0 (List.length rs)) rs).
(** A macro that binds variables and calls itself has a copy for each level of calls. *)
Definition copies : nat := 60.
Fixpoint mentions (m : string) (p : mpat) : bool :=
  let fix list l := match l with
    | [] => false
    | p :: l' => match p, l' with MTok (I x), MTok (P a) :: _ => String.eqb x m && Ascii.eqb a "!" | _, _ => mentions m p end || list l'
    end in
  match p with MTok _ | MVar _ _ => false | MGroup _ l | MRep l _ _ => list l end.
Definition own_macros : macros :=
  flat_map (fun d => let '(m, rs) := d in
    let calls := existsb (fun r => mentions m (MGroup NoDelim (snd r))) rs in
    let binds := existsb (fun r => match binders (pats_size (snd r)) (snd r) with [] => false | _ => true end) rs in
    if calls then if binds then map (fun k => ((m ++ ticks k)%string, own_rules m k rs)) (seq 0 copies) else [(m, rs)] else [(m, own_rules m 0 rs)]) all_macros.
(** The source without the definitions of macros. *)
Fixpoint no_macros (l : list tt) : list tt :=
  match l with
  | [] => []
  | t :: l' => match t, l' with
               | I p, P _ :: I x :: G d _ :: l'' =>
                   if String.eqb p "macro_rules" then no_macros match d, l'' with Paren, P _ :: l3 => l3 | _, _ => l'' end else t :: no_macros l'
               | _, _ => t :: no_macros l'
               end
  end.
Definition own_file (f : string * string) : list item :=
  if String.eqb (fst f) "macros" then [] else snd (read_items 3000 own_macros (fst f) [] (no_macros (no_mods (tokens (snd f))))).
Definition own_items : list item :=
  let its := flat_map own_file (tl sources) ++ match sources with f :: _ => own_file f | [] => [] end in map (res_item its) its.

(** ** The same but for the names of bound variables *)
(** [s] has the bound variables of both sides, the innermost first. *)
Definition scope := list (string * string).
Fixpoint same (s : scope) (x y : string) : bool :=
  match s with
  | [] => String.eqb x y
  | (a, b) :: s' => if String.eqb x a then String.eqb y b else if String.eqb y b then false else same s' x y
  end.
(** The variables that two patterns bind, in pairs. *)
Fixpoint alpha_p (p q : pat) : option scope :=
  let fix list l m := match l, m with
    | [], [] => Some []
    | p :: l', q :: m' => match alpha_p p q, list l' m' with Some s, Some s' => Some (s ++ s') | _, _ => None end
    | _, _ => None end in
  match p, q with
  | PVar x, PVar y => Some [(x, y)]
  | PWild, PWild => Some []
  | PTuple l, PTuple m => list l m
  | PCon c l, PCon d m => if String.eqb c d then list l m else None
  | _, _ => None
  end.
Definition fields_eqb (l m : list (string * rty)) : bool :=
  Nat.eqb (List.length l) (List.length m) && forallb (fun p => String.eqb (fst (fst p)) (fst (snd p)) && rty_eqb (snd (fst p)) (snd (snd p))) (combine l m).
Definition strings_eqb (l m : list string) : bool := if list_eq_dec string_dec l m then true else false.
(** The input in the macros of nom. *)
Definition inside (s : scope) : scope := ("$in", "$in") :: s.
Fixpoint alpha (s : scope) (e f : expr) : bool :=
  match e, f with
  | EVar x, EVar y => same s x y
  | EStr x, EStr y => String.eqb x y
  | EChar x, EChar y => Ascii.eqb x y
  | EBool x, EBool y => Bool.eqb x y
  | ETuple l, ETuple m => alpha_l s l m
  | ECon c l, ECon d m => String.eqb c d && alpha_l s l m
  | ENew t v l, ENew t' v' m => String.eqb t t' && String.eqb v v' && alpha_l s l m
  | ESelf l, ESelf m => strings_eqb l m && forallb (fun x => same s x x) l
  | ERecord l, ERecord m => fields_eqb l m && forallb (fun x => same s (fst x) (fst x)) l
  | EDefault, EDefault => true
  | EParse t a, EParse u b => rty_eqb t u && alpha s a b
  | ECall g l, ECall h m => String.eqb g h && alpha_l s l m
  | ENom g a b, ENom h c d => String.eqb g h && alpha s a c && alpha s b d
  | EMethod a g l, EMethod b h m => String.eqb g h && alpha s a b && alpha_l s l m
  | EBin o a b, EBin o' c d => String.eqb o o' && alpha s a c && alpha s b d
  | EMatch a l, EMatch b m => alpha s a b && alpha_a s l m
  | EClo p a, EClo q b => match alpha_p p q with Some s' => alpha (s' ++ s) a b | None => false end
  | EPath a, EPath b => String.eqb a b
  | EBlock l a, EBlock m b => match alpha_s s l m with Some s' => alpha s' a b | None => false end
  | EStep i p x k, EStep i' p' x' k' => alpha s i i' && alpha (inside s) p p' && alpha (inside ((x, x') :: s)) k k'
  | EDone a b, EDone c d => alpha s a c && alpha s b d
  | EOpt a b, EOpt c d | EMany0 a b, EMany0 c d | ERecognize a b, ERecognize c d => alpha s a c && alpha (inside s) b d
  | EMap a b c, EMap a' b' c' => alpha s a a' && alpha (inside s) b b' && alpha s c c'
  | ECond a b c, ECond a' b' c' => alpha s a a' && alpha s b b' && alpha (inside s) c c'
  | EAlt a b c, EAlt a' b' c' | ESepList a b c, ESepList a' b' c'
  | ESepList1 a b c, ESepList1 a' b' c' | ETerminated a b c, ETerminated a' b' c' => alpha s a a' && alpha (inside s) b b' && alpha (inside s) c c'
  | EAltEnd a, EAltEnd b => alpha s a b
  | _, _ => false
  end
with alpha_l (s : scope) (l m : exprs) : bool :=
  match l, m with Nil, Nil => true | Cons e l', Cons f m' => alpha s e f && alpha_l s l' m' | _, _ => false end
with alpha_a (s : scope) (l m : arms) : bool :=
  match l, m with
  | NoArm, NoArm => true
  | Arm p e l', Arm q f m' => match alpha_p p q with Some s' => alpha (s' ++ s) e f | None => false end && alpha_a s l' m'
  | _, _ => false
  end
with alpha_s (s : scope) (l m : stmts) : option scope :=
  match l, m with
  | SEnd, SEnd => Some s
  | SLet p e k, SLet q f k' => if alpha s e f then match alpha_p p q with Some s' => alpha_s (s' ++ s) k k' | None => None end else None
  | SSet x e k, SSet y f k' => if same s x y && alpha s e f then alpha_s s k k' else None
  | SIf c b k, SIf d b' k' => if alpha s c d && match alpha_s s b b' with Some _ => true | None => false end then alpha_s s k k' else None
  | SIfLet p c b k, SIfLet q d b' k' =>
      if alpha s c d && match alpha_p p q with Some s' => match alpha_s (s' ++ s) b b' with Some _ => true | None => false end | None => false end then alpha_s s k k' else None
  | SAssert c k, SAssert d k' => if alpha s c d then alpha_s s k k' else None
  | _, _ => None
  end.
Definition alpha_item (i j : item) : bool :=
  match i, j with
  | IStruct ds t vs fs, IStruct ds' t' vs' fs' => strings_eqb ds ds' && String.eqb t t' && strings_eqb vs vs' && fields_eqb fs fs'
  | IEnum ds t vs, IEnum ds' t' vs' => strings_eqb ds ds' && String.eqb t t' && fields_eqb vs vs'
  | IAlias x t, IAlias y u => String.eqb x y && rty_eqb t u
  | IFn f ps e, IFn g qs e' => String.eqb f g && Nat.eqb (List.length ps) (List.length qs) && alpha (combine ps qs) e e'
  | IParse vs t x e, IParse vs' t' y e' => strings_eqb vs vs' && rty_eqb t t' && alpha [(x, y)] e e'
  | IFrom a b x e, IFrom a' b' y e' => rty_eqb a a' && rty_eqb b b' && alpha [(x, y)] e e'
  | _, _ => false
  end.
Definition own_crate : list item := Eval vm_compute in own_items.
Lemma own_read : own_crate = own_items.
Proof. vm_cast_no_check (eq_refl own_crate). Qed.
Fixpoint alpha_items (l m : list item) : bool :=
  match l, m with [], [] => true | i :: l', j :: m' => alpha_item i j && alpha_items l' m' | _, _ => false end.
Theorem own_alpha : alpha_items own_crate crate_items = true.
Proof. vm_compute. reflexivity. Qed.

(** ** They run alike *)
Inductive Rel : scope -> env -> env -> Prop :=
| R_nil : Rel [] [] []
| R_cons x y v s a b : Rel s a b -> Rel ((x, y) :: s) ((x, v) :: a) ((y, v) :: b).
Lemma Rel_app s a b : Rel s a b -> forall s' a' b', Rel s' a' b' -> Rel (s ++ s') (a ++ a') (b ++ b').
Proof. induction 1; intros; cbn; [assumption|constructor; auto]. Qed.
Lemma Rel_length s a b : Rel s a b -> length a = length s /\ length b = length s.
Proof. induction 1; cbn; lia. Qed.
Lemma Rel_skip s a b : Rel s a b -> forall k, Rel (skipn k s) (skipn k a) (skipn k b).
Proof. induction 1; intros [|k]; cbn; try constructor; auto. Qed.
Lemma Rel_lookup s a b x y : Rel s a b -> same s x y = true -> lookup x a = lookup y b.
Proof.
  induction 1 as [|x' y' v s a b R IH]; intros H; [reflexivity|]. cbn in H |- *. destruct (String.eqb x x'); [rewrite H; reflexivity|].
  destruct (String.eqb y y'); [discriminate|auto].
Qed.
Lemma Rel_update s a b x y v : Rel s a b -> same s x y = true ->
  match update x v a, update y v b with Some a', Some b' => Rel s a' b' | None, None => True | _, _ => False end.
Proof.
  induction 1 as [|x' y' w s a b R IH]; intros H; [exact Logic.I|]. cbn in H |- *. destruct (String.eqb x x').
  - rewrite H. constructor. exact R.
  - destruct (String.eqb y y'); [discriminate|]. specialize (IH H). destruct (update x v a), (update y v b); try contradiction; [constructor; exact IH|exact Logic.I].
Qed.
Lemma bindp_alpha n : forall p q s, (fix sz p := match p with PVar _ | PWild => 1 | PTuple l | PCon _ l => S (list_sum (map sz l)) end) p <= n -> alpha_p p q = Some s -> forall v,
  match bindp p v, bindp q v with Some a, Some b => Rel s a b | None, None => True | _, _ => False end.
Proof.
  set (sz := fix sz p := match p with PVar _ | PWild => 1 | PTuple l | PCon _ l => S (list_sum (map sz l)) end).
  induction n as [|n IH]; intros p q s Hn H v; [destruct p; cbn in Hn; lia|].
  assert (HL : forall l m s vs, list_sum (map sz l) <= n ->
    (fix list l m := match l, m with [], [] => Some [] | p :: l', q :: m' => match alpha_p p q, list l' m' with Some s, Some s' => Some (s ++ s') | _, _ => None end | _, _ => None end) l m = Some s ->
    let binds := fix binds ps vs := match ps, vs with [], [] => Some [] | q :: ps', w :: vs' => match bindp q w, binds ps' vs' with Some a, Some b => Some (a ++ b) | _, _ => None end | _, _ => None end in
    match binds l vs, binds m vs with Some a, Some b => Rel s a b | None, None => True | _, _ => False end).
  { clear p q s Hn H v. induction l as [|p l IHl]; intros [|q m] s vs L K; try discriminate K; cbv zeta.
    - injection K as <-. destruct vs; [constructor|exact Logic.I].
    - change (sz p + list_sum (map sz l) <= n) in L. destruct (alpha_p p q) as [s1|] eqn:E; [|discriminate].
      match type of K with match ?x with _ => _ end = _ => destruct x as [s2|] eqn:E2; [|discriminate K] end. injection K as <-.
      destruct vs as [|w vs]; [exact Logic.I|]. pose proof (IH p q s1 ltac:(lia) E w) as H1. pose proof (IHl m s2 vs ltac:(lia) E2) as H2. cbv zeta in H2.
      destruct (bindp p w), (bindp q w); try contradiction; [|exact Logic.I].
      match type of H2 with match ?x with _ => _ end => destruct x end; match type of H2 with match ?x with _ => _ end => destruct x end; try contradiction; [apply Rel_app; assumption|exact Logic.I]. }
  destruct p as [x| |l|c l], q as [y| |m|d m]; try discriminate H.
  - injection H as <-. cbn. constructor. constructor.
  - injection H as <-. cbn. constructor.
  - cbn [bindp]. destruct v; try exact Logic.I. apply (HL l m s l0); [|exact H]. change (S (list_sum (map sz l)) <= S n) in Hn. lia.
  - cbn [alpha_p] in H. destruct (String.eqb c d) eqn:E; [|discriminate]. apply String.eqb_eq in E. subst d. cbn [bindp]. destruct v as [| | | | |c' vs| | | |]; try exact Logic.I.
    destruct (String.eqb c c'); [|exact Logic.I]. apply (HL l m s vs); [|exact H]. change (S (list_sum (map sz l)) <= S n) in Hn. lia.
Qed.
Lemma bindp_rel p q s v : alpha_p p q = Some s -> match bindp p v, bindp q v with Some a, Some b => Rel s a b | None, None => True | _, _ => False end.
Proof. intros H. exact (bindp_alpha _ p q s (le_n _) H v). Qed.
Lemma fields_eq l m : fields_eqb l m = true -> l = m.
Proof.
  unfold fields_eqb. revert m. induction l as [|[x t] l IH]; intros [|[y u] m] H; try discriminate H; auto. cbn in H. apply andb_prop in H. destruct H as [L H].
  apply andb_prop in H. destruct H as [H K]. apply andb_prop in H. destruct H as [E E']. apply String.eqb_eq in E. apply (rty_eqb_eq _ t u (le_n _)) in E'. subst. f_equal.
  apply IH. rewrite K. cbn in L. rewrite L. reflexivity.
Qed.
Lemma strings_eq l m : strings_eqb l m = true -> l = m.
Proof. unfold strings_eqb. destruct (list_eq_dec string_dec l m); [auto|discriminate]. Qed.
Lemma record_rel te s a b l : Rel s a b -> forallb (fun x => same s (fst x) (fst x)) l = true -> record te a l = record te b l.
Proof.
  intros R. induction l as [|[f t] l IH]; intros H; [reflexivity|]. cbn in H. apply andb_prop in H. destruct H as [H K]. cbn. rewrite (Rel_lookup _ _ _ _ _ R H), (IH K). reflexivity.
Qed.
(** The combinators only look at the results of their parsers. *)
Lemma many0_ext (p q : parser text value) n : (forall i, p i = q i) -> forall i, many0 text_eqb n p i = many0 text_eqb n q i.
Proof.
  intros H i. unfold many0. generalize (@nil value) as acc. revert i. induction n as [|n IH]; intros i acc; [reflexivity|]. cbn. rewrite H.
  destruct (q i); [|reflexivity|reflexivity]. destruct (text_eqb _ _); [reflexivity|apply IH].
Qed.
Lemma sep_loop_ext (p q p' q' : parser text value) n : (forall i, p i = p' i) -> (forall i, q i = q' i) -> forall i acc, sep_loop text_eqb n p q i acc = sep_loop text_eqb n p' q' i acc.
Proof.
  intros H K. induction n as [|n IH]; intros i acc; [reflexivity|]. cbn. rewrite H. destruct (p' i) as [r x| |]; try reflexivity. destruct (text_eqb _ _); [reflexivity|]. rewrite K.
  destruct (q' r); try reflexivity. destruct (text_eqb _ _); [reflexivity|apply IH].
Qed.
Lemma sep_ext (p q p' q' : parser text value) n : (forall i, p i = p' i) -> (forall i, q i = q' i) -> forall i, separated_list text_eqb n p q i = separated_list text_eqb n p' q' i.
Proof. intros H K i. unfold separated_list. rewrite K. destruct (q' i); try reflexivity. destruct (text_eqb _ _); [reflexivity|]. apply sep_loop_ext; assumption. Qed.
Lemma sep1_ext (p q p' q' : parser text value) n : (forall i, p i = p' i) -> (forall i, q i = q' i) -> forall i, separated_nonempty_list text_eqb n p q i = separated_nonempty_list text_eqb n p' q' i.
Proof. intros H K i. unfold separated_nonempty_list. rewrite K. destruct (q' i); try reflexivity. destruct (text_eqb _ _); [reflexivity|]. apply sep_loop_ext; assumption. Qed.

Scheme expr_ind' := Induction for expr Sort Prop
with exprs_ind' := Induction for exprs Sort Prop
with arms_ind' := Induction for arms Sort Prop
with stmts_ind' := Induction for stmts Sort Prop.
Combined Scheme expr_mut from expr_ind', exprs_ind', arms_ind', stmts_ind'.

(** One step of the interpreter. *)
Section Step.
Context (fuel : nat) (cl : callee -> list value -> ans) (te : tenv) (self : string).
Context (ev : env -> expr -> ans) (evs : env -> exprs -> list value + ans) (arms : env -> value -> arms -> ans) (ex : env -> stmts -> sans).
Definition estep (e : env) (x : expr) : ans :=
  let sub (e : env) (p : expr) (j : text) : res text value := unlift (ev (inp j e) p) in
  let app (f : expr) (v : value) : ans :=
    match f with
    | EClo p b => match bindp p v with Some e' => ev (e' ++ e) b | None => Stuck end
    | _ => Stuck
    end in
  let on i (k : text -> ans) : ans := match ev e i with Val (VStr j) => k j | Val _ => Stuck | a => a end in
  match x with
  | EVar y => match lookup y e with Some (Some v) => Val v | _ => Stuck end
  | EStr s => Val (VStr (str s))
  | EChar c => Val (VChr (chr c))
  | EBool b => vbool b
  | ETuple l => match evs e l with inl vs => Val (VTup vs) | inr a => a end
  | ECon c l => match evs e l with inl vs => Val (con c vs) | inr a => a end
  | ENew t v l => match evs e l with
                  | inl [] => Val (VData t v [])
                  | inl [a] => Val (VData t v [("0", a)])
                  | inl _ => Stuck
                  | inr a => a
                  end
  | ERecord l => match record te e l with Some fs => Val (VData self "" fs) | None => Stuck end
  | EParse t a => match ev e a with Val v => cl (CParse (subst te t)) [v] | r => r end
  | ECall f l =>
      match evs e l with
      | inl vs => if String.eqb f "is_alphanumeric" then match vs with [VChr c] => vbool (is_alphanumeric c) | _ => Stuck end else cl (CFn f) vs
      | inr a => a
      end
  | ENom f a i =>
      on i (fun j =>
        let pred (c : N) : bool := match app a (VChr c) with Val (VBool b) => b | _ => false end in
        if String.eqb f "take_while" then lift (vtext (take_while pred j))
        else if String.eqb f "take_while1" then lift (vtext (take_while1 pred j))
        else match ev e a with
             | Val (VStr s) =>
                 if String.eqb f "tag" then lift (vtext (tag s j))
                 else if String.eqb f "take_until" then lift (vtext (take_until s j))
                 else if String.eqb f "one_of" then lift (vchar (one_of s j))
                 else Stuck
             | Val (VChr c) => if String.eqb f "char" then lift (vchar (pchar c j)) else Stuck
             | _ => Stuck
             end)
  | EMethod a m l =>
      match ev e a with
      | Val v => match evs e l with inl vs => method v m vs | inr r => r end
      | r => r
      end
  | EBin op a b =>
      match ev e a with
      | Val v =>
          if String.eqb op "||" then match v with VBool true => vbool true | VBool false => ev e b | _ => Stuck end
          else if String.eqb op "&&" then match v with VBool true => ev e b | VBool false => vbool false | _ => Stuck end
          else match ev e b with Val w => binop op v w | r => r end
      | r => r
      end
  | EMatch a l => match ev e a with Val v => arms e v l | r => r end
  | EBlock l a => match ex e l with SEnv e' => ev e' a | SPanic => Panic | SStuck => Stuck end
  | EStep i p y k =>
      on i (fun j => match sub e p j with
                     | Ok r v => ev (inp r ((y, Some v) :: e)) k
                     | Err er => Val (verr er)
                     | Diverge => Stuck
                     end)
  | EDone i a => on i (fun j => match ev e a with Val v => Val (vok j v) | r => r end)
  | EAlt i p q => on i (fun j => lift (alt_or (sub e p) (sub e q) j))
  | EAltEnd i => on i (fun j => lift (alt_end j))
  | EOpt i p => on i (fun j => lift (vopt (opt (sub e p) j)))
  | EMany0 i p => on i (fun j => lift (vec (many0 text_eqb (fuel + S (length j)) (sub e p) j)))
  | ERecognize i p => on i (fun j => lift (vtext (recognize (sub e p) j)))
  | EMap i p f =>
      on i (fun j => match sub e p j with
                     | Ok r v => match app f v with Val w => Val (vok r w) | a => a end
                     | Err er => Val (verr er)
                     | Diverge => Stuck
                     end)
  | ECond i c p =>
      on i (fun j => match ev e c with
                     | Val (VBool true) => match sub e p j with
                                           | Ok r v => Val (vok r (VCon "Some" [v]))
                                           | Err er => Val (verr er)
                                           | Diverge => Stuck
                                           end
                     | Val (VBool false) => Val (vok j (VCon "None" []))
                     | _ => Stuck
                     end)
  | ESepList i p q => on i (fun j => lift (vec (separated_list text_eqb (fuel + S (length j)) (sub e p) (sub e q) j)))
  | ESepList1 i p q => on i (fun j => lift (vec (separated_nonempty_list text_eqb (fuel + S (length j)) (sub e p) (sub e q) j)))
  | ETerminated i p q =>
      on i (fun j => lift (bind (sub e p) (fun v => bind (sub e q) (fun _ => ret v)) j))
  | ESelf _ | EClo _ _ | EPath _ | EDefault => Stuck
  end.
Definition sstep (e : env) (l : stmts) : sans :=
  match l with
  | SEnd => SEnv e
  | SLet (PVar x) EDefault k => ex ((x, None) :: e) k
  | SLet p a k =>
      match ev e a with
      | Val v => match bindp p v with Some e' => ex (e' ++ e) k | None => SStuck end
      | Panic => SPanic
      | Stuck => SStuck
      end
  | SSet x a k =>
      match ev e a with
      | Val v => match update x v e with Some e' => ex e' k | None => SStuck end
      | Panic => SPanic
      | Stuck => SStuck
      end
  | SIf c b k =>
      match ev e c with
      | Val (VBool true) => match leave e (ex e b) with SEnv e' => ex e' k | r => r end
      | Val (VBool false) => ex e k
      | Val _ => SStuck
      | Panic => SPanic
      | Stuck => SStuck
      end
  | SIfLet p a b k =>
      match ev e a with
      | Val v => match bindp p v with
                 | Some e' => match leave e (ex (e' ++ e) b) with SEnv e'' => ex e'' k | r => r end
                 | None => ex e k
                 end
      | Panic => SPanic
      | Stuck => SStuck
      end
  | SAssert c k =>
      match ev e c with
      | Val (VBool true) => ex e k
      | Val (VBool false) => SPanic
      | Val _ => SStuck
      | Panic => SPanic
      | Stuck => SStuck
      end
  end.
End Step.
Lemma eval_step fuel cl te self e x : eval fuel cl te self e x =
  estep fuel cl te self (eval fuel cl te self) (evals fuel cl te self) (eval_arms fuel cl te self) (exec fuel cl te self) e x.
Proof. destruct x; reflexivity. Qed.
Lemma exec_step fuel cl te self e l : exec fuel cl te self e l = sstep (eval fuel cl te self) (exec fuel cl te self) e l.
Proof. destruct l as [|[] []| | | |]; reflexivity. Qed.

Section Run.
Context (fuel : nat) (cl cl' : callee -> list value -> ans) (Hcl : forall f args, cl f args = cl' f args) (te : tenv) (self : string).
Let ev := eval fuel cl te self.
Let ev' := eval fuel cl' te self.
Definition app_with (ev : env -> expr -> ans) (e : env) (f : expr) (v : value) : ans :=
  match f with EClo p b => match bindp p v with Some e' => ev (e' ++ e) b | None => Stuck end | _ => Stuck end.
Definition srel (s : scope) (r r' : sans) : Prop :=
  match r, r' with SEnv a, SEnv b => Rel s a b | SPanic, SPanic | SStuck, SStuck => True | _, _ => False end.
Lemma alpha_s_ext l : forall s m s', alpha_s s l m = Some s' -> exists t, s' = t ++ s.
Proof.
  induction l as [|p e k IH|x e k IH|c b _ k IH|p c b _ k IH|c k IH]; intros s [|p' e' k'|x' e' k'|c' b' k'|p' c' b' k'|c' k'] s' H; try discriminate H; cbn in H.
  - injection H as <-. exists []. reflexivity.
  - destruct (alpha s e e'); [|discriminate]. destruct (alpha_p p p') as [t|]; [|discriminate]. destruct (IH _ _ _ H) as [u ->]. exists (u ++ t). rewrite app_assoc. reflexivity.
  - destruct (_ && _); [|discriminate]. exact (IH _ _ _ H).
  - destruct (_ && _); [|discriminate]. exact (IH _ _ _ H).
  - destruct (_ && _); [|discriminate]. exact (IH _ _ _ H).
  - destruct (alpha s c c'); [|discriminate]. exact (IH _ _ _ H).
Qed.
Lemma leave_rel s s' a b r r' : Rel s a b -> srel (s' ++ s) r r' -> srel s (leave a r) (leave b r').
Proof.
  intros R. destruct r as [a'| |], r' as [b'| |]; cbn; try contradiction; auto. intros R'. destruct (Rel_length _ _ _ R) as [La Lb]. destruct (Rel_length _ _ _ R') as [La' Lb'].
  rewrite La, Lb, La', Lb'. rewrite app_length, Nat.add_sub. pose proof (Rel_skip _ _ _ R' (length s')) as K. rewrite skipn_app, skipn_all, Nat.sub_diag in K. exact K.
Qed.
Ltac inv H := repeat match type of H with _ && _ = true => apply andb_prop in H; let K := fresh "K" in destruct H as [H K] end.
Ltac eqs := repeat match goal with
  | H : String.eqb _ _ = true |- _ => apply String.eqb_eq in H; subst
  | H : Ascii.eqb _ _ = true |- _ => apply Ascii.eqb_eq in H; subst
  | H : Bool.eqb _ _ = true |- _ => apply Bool.eqb_prop in H; subst
  | H : rty_eqb ?t ?u = true |- _ => apply (rty_eqb_eq _ t u (le_n _)) in H; subst
  end.
Ltac ihs := repeat match goal with
  | IH : forall f s a b, alpha s ?e f = true -> _, K : alpha (inside ?s) ?e ?f = true, R : Rel ?s ?a ?b |- _ =>
      let X := fresh "X" in pose proof (fun j => proj1 (IH f (inside s) (inp j a) (inp j b) K ltac:(constructor; exact R))) as X; clear K
  | IH : forall f s a b, alpha s ?e f = true -> _, K : alpha ?s ?e ?f = true, R : Rel ?s ?a ?b |- _ => pose proof (IH f s a b K R); clear K
  | IH : forall m s a b, alpha_l s ?l m = true -> _, K : alpha_l ?s ?l ?m = true, R : Rel ?s ?a ?b |- _ => pose proof (IH m s a b K R); clear K
  end.
Theorem eval_alpha :
  (forall e f s a b, alpha s e f = true -> Rel s a b -> ev a e = ev' b f /\ forall v, app_with ev a e v = app_with ev' b f v) /\
  (forall l m s a b, alpha_l s l m = true -> Rel s a b -> evals fuel cl te self a l = evals fuel cl' te self b m) /\
  (forall l m s a b, alpha_a s l m = true -> Rel s a b -> forall v, eval_arms fuel cl te self a v l = eval_arms fuel cl' te self b v m) /\
  (forall l m s s' a b, alpha_s s l m = Some s' -> Rel s a b -> srel s' (exec fuel cl te self a l) (exec fuel cl' te self b m)).
Proof.
  assert (IN : forall s a b j, Rel s a b -> Rel (inside s) (inp j a) (inp j b)) by (intros; constructor; assumption).
  apply expr_mut.
  all: try (intros; match goal with H : alpha _ _ ?f = true |- _ => destruct f; try discriminate H; cbn [alpha] in H; inv H; eqs; ihs end; subst ev ev'; cbv beta in *;
    split; [rewrite !eval_step; cbn [estep]|try reflexivity]).
  all: try subst ev; try subst ev'.
  all: repeat match goal with H : _ /\ _ |- _ => destruct H end.
  all: try reflexivity.
  all: repeat match goal with H : eval _ _ _ _ ?a ?e = _ |- context [eval _ _ _ _ ?a ?e] => rewrite H | H : evals _ _ _ _ ?a ?e = _ |- context [evals _ _ _ _ ?a ?e] => rewrite H end.
  all: try reflexivity.
  all: try (match goal with |- match ?x with _ => _ end = match ?y with _ => _ end => constr_eq x y; match type of x with ans => let v := fresh "v" in destruct x as [v| |]; try reflexivity; try apply Hcl; match goal with |- match v with _ => _ end = _ => destruct v; try reflexivity | _ => idtac end end end).
  - match goal with R : Rel _ _ _, H : same _ _ _ = true |- _ => rewrite (Rel_lookup _ _ _ _ _ R H) end. reflexivity.
  - match goal with H : fields_eqb _ _ = true |- _ => apply fields_eq in H; subst end.
    match goal with R : Rel _ _ _, H : forallb _ _ = true |- _ => rewrite (record_rel te _ _ _ _ R H) end. reflexivity.
  - match goal with |- match ?x with _ => _ end = _ => destruct x end; [|reflexivity]. destruct (String.eqb _ _); [reflexivity|apply Hcl].
  - unfold take_while, take_while1.
    match goal with H : forall v, app_with _ a0 a v = _ |- ?lhs = ?rhs =>
      match lhs with context [span ?F s0] => match rhs with context [span ?G s0] =>
        assert (X : span F s0 = span G s0) by (apply Faithful.span_ext; intro c; specialize (H (VChr c)); unfold app_with in H; rewrite H; reflexivity) end end end.
    rewrite X. reflexivity.
  - match goal with IH : forall m s a b, alpha_a _ _ _ = true -> _, K : alpha_a _ _ _ = true, R : Rel _ _ _ |- _ => apply (IH _ _ _ _ K R) end.
  - intros v. cbn [app_with]. match goal with H : match ?x with _ => _ end = true |- _ => destruct x as [t|] eqn:E; [|discriminate H] end. pose proof (bindp_rel _ _ _ v E) as B.
    destruct (bindp x v), (bindp x0 v); try contradiction; [|reflexivity].
    match goal with IH : forall f s a b, alpha _ _ _ = true -> _, K : alpha _ _ _ = true, R : Rel _ _ _ |- _ => apply (IH _ _ _ _ K (Rel_app _ _ _ B _ _ _ R)) end.
  - match goal with H : match ?x with _ => _ end = true |- _ => destruct x as [t|] eqn:E; [|discriminate H] end.
    match goal with IH : forall m s s' a b, alpha_s _ _ _ = _ -> _, R : Rel _ _ _ |- _ => pose proof (IH _ _ _ _ _ E R) as B end. unfold srel in B.
    destruct (exec fuel cl te self a l), (exec fuel cl' te self b l0); try contradiction; try reflexivity.
    match goal with IH : forall f s a b, alpha _ _ _ = true -> _, K : alpha _ _ _ = true |- _ => apply (IH _ _ _ _ K B) end.
  - match goal with X : forall j, eval _ _ _ _ (inp j _) _ = _ |- _ => rewrite X end. destruct (unlift _); try reflexivity.
    match goal with IH : forall f s a b, alpha s ?k f = true -> _, K : alpha (inside _) ?k _ = true, R : Rel _ _ _ |- _ => refine (proj1 (IH _ _ _ _ K _)); constructor; constructor; exact R end.
  - unfold alt_or. repeat match goal with X : forall j, eval _ _ _ _ (inp j _) _ = _ |- _ => rewrite X; clear X end. reflexivity.
  - unfold opt. repeat match goal with X : forall j, eval _ _ _ _ (inp j _) _ = _ |- _ => rewrite X; clear X end. reflexivity.
  - f_equal. f_equal. apply many0_ext. intros j. repeat match goal with X : forall j, eval _ _ _ _ (inp j _) _ = _ |- _ => rewrite X; clear X end. reflexivity.
  - unfold recognize. repeat match goal with X : forall j, eval _ _ _ _ (inp j _) _ = _ |- _ => rewrite X; clear X end. reflexivity.
  - repeat match goal with X : forall j, eval _ _ _ _ (inp j _) _ = _ |- _ => rewrite X; clear X end. destruct (unlift _) as [r v| |]; try reflexivity.
    match goal with X : forall v, app_with _ _ ?f v = app_with _ _ ?g v |- match match ?f with _ => _ end with _ => _ end = _ => specialize (X v); unfold app_with in X; rewrite X; reflexivity end.
  - repeat match goal with X : forall j, eval _ _ _ _ (inp j _) _ = _ |- _ => rewrite X; clear X end. reflexivity.
  - f_equal. f_equal. apply sep_ext; intros j; match goal with X : forall j, eval _ _ _ _ (inp j _) ?p = _ |- context [?p] => rewrite X end; reflexivity.
  - f_equal. f_equal. apply sep1_ext; intros j; match goal with X : forall j, eval _ _ _ _ (inp j _) ?p = _ |- context [?p] => rewrite X end; reflexivity.
  - unfold bind. match goal with X : forall j, eval _ _ _ _ (inp j _) ?p = _ |- context [eval fuel cl te self (inp _ a) ?p] => rewrite X end. destruct (unlift _); try reflexivity.
    match goal with X : forall j, eval _ _ _ _ (inp j _) ?p = _ |- context [eval fuel cl te self (inp _ a) ?p] => rewrite X end. reflexivity.
  - intros [|] s a b H R; [reflexivity|discriminate].
  - intros e IHe l IHl [|f m] s a b H R; [discriminate|]. cbn [alpha_l] in H. inv H. rewrite !evals_Cons. rewrite (proj1 (IHe _ _ _ _ H R)), (IHl _ _ _ _ K R). reflexivity.
  - intros [|] s a b H R v; [reflexivity|discriminate].
  - intros p e IHe l IHl [|q f m] s a b H R v; [discriminate|]. cbn [alpha_a] in H. inv H. rewrite !eval_arms_Arm. destruct (alpha_p p q) as [t|] eqn:E; [|discriminate].
    pose proof (bindp_rel _ _ _ v E) as B. destruct (bindp p v), (bindp q v); try contradiction.
    + apply (IHe _ _ _ _ H (Rel_app _ _ _ B _ _ _ R)).
    + apply (IHl _ _ _ _ K R).
  - intros  m s s' a b H R; destruct m as [| | | | |]; try discriminate H. injection H as <-. exact R.
  - intros p e IHe k IHk m s s' a b H R; destruct m as [|q f k'| | | |]; try discriminate H. cbn [alpha_s] in H. destruct (alpha s e f) eqn:A; [|discriminate]. destruct (alpha_p p q) as [t|] eqn:E; [|discriminate].
    pose proof (proj1 (IHe _ _ _ _ A R)) as X.  rewrite !exec_step.
    assert (Y : srel s' (match eval fuel cl te self a e with Val v => match bindp p v with Some e' => exec fuel cl te self (e' ++ a) k | None => SStuck end | Panic => SPanic | Stuck => SStuck end)
      (match eval fuel cl' te self b f with Val v => match bindp q v with Some e' => exec fuel cl' te self (e' ++ b) k' | None => SStuck end | Panic => SPanic | Stuck => SStuck end)).
    { rewrite X. destruct (eval fuel cl' te self b f) as [v| |]; try exact Logic.I. pose proof (bindp_rel _ _ _ v E) as B. destruct (bindp p v), (bindp q v); try contradiction; [|exact Logic.I].
      apply (IHk _ _ _ _ _ H (Rel_app _ _ _ B _ _ _ R)). }
    destruct p as [x| | |], q as [y| | |]; try discriminate E; try (cbn [sstep]; exact Y).
    destruct e; destruct f; try discriminate A; try (cbn [sstep]; exact Y). cbn [sstep]. apply (IHk _ _ _ _ _ H). injection E as <-. constructor. exact R.
  - intros x e IHe k IHk m s s' a b H R; destruct m as [| |y f k'| | |]; try discriminate H. cbn [alpha_s] in H. destruct (same s x y && alpha s e f) eqn:A; [|discriminate]. inv A. rewrite !exec_step. cbn [sstep].
    pose proof (proj1 (IHe _ _ _ _ K R)) as X.  rewrite X. destruct (eval fuel cl' te self b f) as [v| |]; try exact Logic.I. pose proof (Rel_update _ _ _ _ _ v R A) as U.
    destruct (update x v a), (update y v b); try contradiction; [|exact Logic.I]. apply (IHk _ _ _ _ _ H U).
  - intros c IHc b0 IHb k IHk m s s' a b H R; destruct m as [| | |c' b0' k'| |]; try discriminate H. cbn [alpha_s] in H. destruct (_ && _) eqn:A in H; [|discriminate]. inv A. destruct (alpha_s s b0 b0') as [t|] eqn:B; [|discriminate K].
    rewrite !exec_step. cbn [sstep]. pose proof (proj1 (IHc _ _ _ _ A R)) as X.  rewrite X. destruct (eval fuel cl' te self b c') as [v| |]; try exact Logic.I. destruct v as [| |[] | | | | | | |]; try exact Logic.I.
    + pose proof (IHb _ _ _ _ _ B R) as Y. destruct (alpha_s_ext _ _ _ _ B) as [u ->]. pose proof (leave_rel _ _ _ _ _ _ R Y) as Z. unfold srel in Z.
      destruct (leave a _), (leave b _); try contradiction; try exact Logic.I. apply (IHk _ _ _ _ _ H Z).
    + apply (IHk _ _ _ _ _ H R).
  - intros p c IHc b0 IHb k IHk m s s' a b H R; destruct m as [| | | |q c' b0' k'|]; try discriminate H. cbn [alpha_s] in H. destruct (_ && _) eqn:A in H; [|discriminate]. inv A.
    destruct (alpha_p p q) as [w|] eqn:E; [|discriminate K]. destruct (alpha_s (w ++ s) b0 b0') as [t|] eqn:B; [|discriminate K].
    rewrite !exec_step. cbn [sstep]. pose proof (proj1 (IHc _ _ _ _ A R)) as X.  rewrite X. destruct (eval fuel cl' te self b c') as [v| |]; try exact Logic.I.
    pose proof (bindp_rel _ _ _ v E) as Q. destruct (bindp p v) as [e1|], (bindp q v) as [e2|]; try contradiction.
    + pose proof (IHb _ _ _ _ _ B (Rel_app _ _ _ Q _ _ _ R)) as Y. destruct (alpha_s_ext _ _ _ _ B) as [u ->]. rewrite app_assoc in Y. pose proof (leave_rel _ _ _ _ _ _ R Y) as Z. unfold srel in Z.
      destruct (leave a _), (leave b _); try contradiction; try exact Logic.I. apply (IHk _ _ _ _ _ H Z).
    + apply (IHk _ _ _ _ _ H R).
  - intros c IHc k IHk m s s' a b H R; destruct m as [| | | | |c' k']; try discriminate H. cbn [alpha_s] in H. destruct (alpha s c c') eqn:A; [|discriminate].
    rewrite !exec_step. cbn [sstep]. pose proof (proj1 (IHc _ _ _ _ A R)) as X.  rewrite X. destruct (eval fuel cl' te self b c') as [v| |]; try exact Logic.I. destruct v as [| |[] | | | | | | |]; try exact Logic.I.
    apply (IHk _ _ _ _ _ H R).
Qed.
End Run.
(** ** The program of a list of items *)
Definition impls_of (its : list item) : list (list string * rty * string * expr) := flat_map (fun i => match i with IParse vs t x e => [(vs, t, x, e)] | _ => [] end) its.
Definition fns_of (its : list item) : list (string * (string * expr)) := flat_map (fun i => match i with IFn f [x] e => [(f, (x, e))] | _ => [] end) its.
Fixpoint find_impl (l : list (list string * rty * string * expr)) (t : rty) : option (tenv * string * expr) :=
  match l with
  | [] => None
  | (vs, p, x, e) :: l' => match match_ty vs p t with Some te => Some (te, x, e) | None => find_impl l' t end
  end.
Fixpoint call_of (its : list item) (n : nat) (f : callee) (args : list value) : ans :=
  match n with
  | 0 => Stuck
  | S n =>
      match f, args with
      | CParse t, [v] => match find_impl (impls_of its) t with Some (te, x, b) => eval n (call_of its n) te (ty_name t) [(x, Some v)] b | None => Stuck end
      | CFn g, [v] => match lookup g (fns_of its) with Some (x, b) => eval n (call_of its n) [] "" [(x, Some v)] b | None => Stuck end
      | _, _ => Stuck
      end
  end.
Lemma impls_alpha l : forall m, alpha_items l m = true -> forall t,
  match find_impl (impls_of l) t, find_impl (impls_of m) t with
  | Some (te, x, e), Some (te', y, f) => te = te' /\ alpha [(x, y)] e f = true
  | None, None => True
  | _, _ => False
  end.
Proof.
  induction l as [|i l IH]; intros [|j m] H t; try discriminate H; [exact Logic.I|]. cbn [alpha_items] in H. apply andb_prop in H. destruct H as [H K]. specialize (IH _ K t). unfold impls_of in *. cbn [flat_map].
  destruct i, j; try discriminate H; cbn [app]; try exact IH. cbn [alpha_item] in H. apply andb_prop in H. destruct H as [H A]. apply andb_prop in H. destruct H as [V T].
  apply strings_eq in V. apply (rty_eqb_eq _ _ _ (le_n _)) in T. subst. cbn [find_impl]. destruct (match_ty _ _ t); [auto|exact IH].
Qed.
Lemma fns_alpha l : forall m, alpha_items l m = true -> forall g,
  match lookup g (fns_of l), lookup g (fns_of m) with
  | Some (x, e), Some (y, f) => alpha [(x, y)] e f = true
  | None, None => True
  | _, _ => False
  end.
Proof.
  induction l as [|i l IH]; intros [|j m] H g; try discriminate H; [exact Logic.I|]. cbn [alpha_items] in H. apply andb_prop in H. destruct H as [H K]. specialize (IH _ K g). unfold fns_of in *. cbn [flat_map].
  destruct i, j; try discriminate H; cbn [app]; try exact IH. cbn [alpha_item] in H. apply andb_prop in H. destruct H as [H A]. apply andb_prop in H. destruct H as [V T].
  apply String.eqb_eq in V. subst. destruct params as [|x [|? ?]], params0 as [|y [|? ?]]; try discriminate T; try exact IH. cbn [app lookup]. destruct (String.eqb g name0); [exact A|exact IH].
Qed.
(** Items that are the same but for the names of bound variables run alike. *)
Theorem call_alpha its its' : alpha_items its its' = true -> forall n f args, call_of its n f args = call_of its' n f args.
Proof.
  intros H n. induction n as [|n IH]; intros f args; [reflexivity|]. cbn [call_of]. destruct f as [t|g], args as [|v [|? ?]]; try reflexivity.
  - pose proof (impls_alpha _ _ H t) as A. destruct (find_impl (impls_of its) t) as [[[te x] e]|], (find_impl (impls_of its') t) as [[[te' y] e']|]; try contradiction; [|reflexivity].
    destruct A as [-> A]. apply (proj1 (eval_alpha n _ _ IH te' (ty_name t)) e e' [(x, y)]); [exact A|repeat constructor].
  - pose proof (fns_alpha _ _ H g) as A. destruct (lookup g (fns_of its)) as [[x e]|], (lookup g (fns_of its')) as [[y e']|]; try contradiction; [|reflexivity].
    apply (proj1 (eval_alpha n _ _ IH [] "") e e' [(x, y)]); [exact A|repeat constructor].
Qed.
Lemma crate_impls : impls_of crate_items = parse_impls. Proof. vm_compute. reflexivity. Qed.
Lemma crate_fns : fns_of crate_items = fns. Proof. vm_compute. reflexivity. Qed.
Lemma find_impl_crate t : find_impl parse_impls t = find_parse t.
Proof. unfold find_parse. generalize parse_impls. induction l as [|[[[vs p] x] e] l IH]; cbn; [reflexivity|]. destruct (match_ty vs p t); [reflexivity|exact IH]. Qed.
Lemma crate_alpha : alpha_items crate_items crate_items = true.
Proof. vm_compute. reflexivity. Qed.
Theorem call_crate n : forall f args, call_of crate_items n f args = call n f args.
Proof.
  induction n as [|n IH]; intros f args; [reflexivity|]. cbn [call_of call]. destruct f as [t|g], args as [|v [|? ?]]; try reflexivity.
  - pose proof (impls_alpha _ _ crate_alpha t) as A. rewrite crate_impls, find_impl_crate in *. destruct (find_parse t) as [[[te x] e]|]; [|reflexivity].
    apply (proj1 (eval_alpha n _ _ IH te (ty_name t)) e e [(x, x)]); [exact (proj2 A)|repeat constructor].
  - pose proof (fns_alpha _ _ crate_alpha g) as A. rewrite crate_fns in *. destruct (lookup g fns) as [[x e]|]; [|reflexivity].
    apply (proj1 (eval_alpha n _ _ IH [] "") e e [(x, x)]); [exact A|repeat constructor].
Qed.
(** The crate read with macros that have names of their own runs like the crate that was read without. *)
Theorem hygiene n f args : call_of own_crate n f args = call n f args.
Proof. rewrite (call_alpha _ _ own_alpha). apply call_crate. Qed.

(** ** Nothing in a template is captured *)
(** The identifiers of a template in lower case that it does not bind, without [_] and the later segments of paths. *)
Fixpoint idents (n : nat) (l : list mpat) : list string :=
  match n with
  | 0 => []
  | S n =>
      match l with
      | [] => []
      | MTok (P a) :: MTok (I x) :: l' => if Ascii.eqb a ":" then idents n l' else idents n (MTok (I x) :: l')
      | MTok (I x) :: l' => (if lower x && negb (String.eqb x "_") then [x] else []) ++ idents n l'
      | MGroup _ g :: l' | MRep g _ _ :: l' => idents n g ++ idents n l'
      | _ :: l' => idents n l'
      end
  end.
Definition free_idents (t : list mpat) : list string :=
  let bs := binders (pats_size t) t in filter (fun x => negb (existsb (String.eqb x) bs)) (idents (pats_size t) t).
(** All variables that the source binds anywhere outside of macros. *)
Fixpoint pat_names (n : nat) (p : pat) : list string :=
  match n, p with S n, PVar x => [x] | S n, PTuple l | S n, PCon _ l => flat_map (pat_names n) l | _, _ => [] end.
Fixpoint bound (e : expr) : list string :=
  match e with
  | EVar _ | EStr _ | EChar _ | EBool _ | EDefault | EPath _ | ESelf _ | ERecord _ => []
  | ETuple l | ECon _ l | ENew _ _ l | ECall _ l => bound_l l
  | EParse _ a | EAltEnd a => bound a
  | EMethod a _ l => bound a ++ bound_l l
  | ENom _ a b | EBin _ a b | EDone a b | EOpt a b | EMany0 a b | ERecognize a b => bound a ++ bound b
  | EMatch a l => bound a ++ bound_a l
  | EClo p a => pat_names 9 p ++ bound a
  | EBlock l a => bound_s l ++ bound a
  | EStep a b x c => bound a ++ bound b ++ x :: bound c
  | EAlt a b c | EMap a b c | ECond a b c | ESepList a b c | ESepList1 a b c | ETerminated a b c => bound a ++ bound b ++ bound c
  end
with bound_l (l : exprs) : list string := match l with Nil => [] | Cons e l' => bound e ++ bound_l l' end
with bound_a (l : arms) : list string := match l with NoArm => [] | Arm p e l' => pat_names 9 p ++ bound e ++ bound_a l' end
with bound_s (l : stmts) : list string :=
  match l with
  | SEnd => []
  | SLet p e k => pat_names 9 p ++ bound e ++ bound_s k
  | SSet _ e k | SAssert e k => bound e ++ bound_s k
  | SIf c b k => bound c ++ bound_s b ++ bound_s k
  | SIfLet p c b k => pat_names 9 p ++ bound c ++ bound_s b ++ bound_s k
  end.
Definition item_bound (i : item) : list string :=
  match i with IFn _ ps e => ps ++ bound e | IParse _ _ x e | IFrom _ _ x e => x :: bound e | _ => [] end.
Definition captured : list string := filter (fun x => existsb (String.eqb x) (flat_map item_bound own_crate)) (flat_map (fun m => flat_map (fun r => free_idents (snd r)) (snd m)) all_macros).
Lemma captured_none : captured = [].
Proof. vm_compute. reflexivity. Qed.
Theorem no_capture m rs p t x : In (m, rs) all_macros -> In (p, t) rs -> In x (free_idents t) -> forall i, In i own_crate -> ~ In x (item_bound i).
Proof.
  intros M R X i Hi K. assert (C : In x captured); [|rewrite captured_none in C; exact C]. unfold captured. apply filter_In. split.
  - apply in_flat_map. exists (m, rs). split; [exact M|]. apply in_flat_map. exists (p, t). split; [exact R|exact X].
  - apply existsb_exists. exists x. split; [|apply String.eqb_refl]. apply in_flat_map. exists i. auto.
Qed.
