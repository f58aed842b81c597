(** * Running the source of the crate *)
From Coq Require Import String Ascii NArith Arith Bool List.
From Verif Require Import Nom Lex Source.
From Verif Require Rust.
From Verif Require Import Crate.
Import ListNotations.
Open Scope string_scope.
Open Scope list_scope.

(** ** Values *)
Inductive value : Type :=
| VStr (s : text)
| VChr (c : N)                                              (* [char] and [u8] *)
| VBool (b : bool)
| VTup (l : list value)
| VVec (l : list value)
| VCon (c : string) (l : list value)                        (* [Ok(v)], [Some(v)], [Box::new(v)] ... *)
| VData (t v : string) (fields : list (string * value))     (* a struct ([v] is empty) or variant [v] of an enum, of the crate *)
| VBytes (s : text)                                         (* the bytes of a string *)
| VNom (e : nom_err text)
| VKind (k : ekind).
(** A value, a panic, or [Stuck]: something that this interpreter gives no meaning to (or out of fuel). *)
Inductive ans : Type := Val (v : value) | Panic | Stuck.
(** Variables; [None] is [Default::default()] of a type that is not known yet. *)
Definition env : Type := list (string * option value).
(** Types for type parameters. *)
Definition tenv : Set := list (string * rty).

(** [IResult] *)
Definition vok (r : text) (v : value) : value := VCon "Ok" [VTup [VStr r; v]].
(** [Err(e)]. *)
Definition verr (e : nom_err text) : value := VCon "Err" [VNom e].
(** A result of a parser as a Rust value. *)
Definition lift (r : res text value) : ans :=
  match r with
  | Ok i v => Val (vok i v)
  | Err e => Val (verr e)
  | Diverge => Stuck
  end.
(** A Rust value as the result of a parser. *)
Definition unlift (a : ans) : res text value :=
  match a with
  | Val (VCon c l) =>
      if String.eqb c "Ok" then match l with [VTup [VStr r; v]] => Ok r v | _ => Diverge end
      else match l with [VNom e] => Err e | _ => Diverge end
  | _ => Diverge
  end.
(** Constructors that are not of the crate. *)
Definition con (c : string) (l : list value) : value :=
  if String.eqb c "NomErr::Error" then match l with [VTup [VStr i; VKind k]] => VNom (Error i k) | _ => VCon c l end
  else if String.eqb c "ErrorKind::Tag" then match l with [] => VKind KTag | _ => VCon c l end
  else VCon c l.

(** Match a pattern. *)
Fixpoint bindp (p : pat) (v : value) : option env :=
  let fix binds ps vs :=
    match ps, vs with
    | [], [] => Some []
    | q :: ps', w :: vs' => match bindp q w, binds ps' vs' with Some a, Some b => Some (a ++ b) | _, _ => None end
    | _, _ => None
    end in
  match p with
  | PVar x => Some [(x, Some v)]
  | PWild => Some []
  | PTuple ps => match v with VTup vs => binds ps vs | _ => None end
  | PCon c ps => match v with VCon d vs => if String.eqb c d then binds ps vs else None | _ => None end
  end.

(** Look a name up. *)
Fixpoint lookup {A} (x : string) (l : list (string * A)) : option A :=
  match l with [] => None | (y, v) :: l' => if String.eqb x y then Some v else lookup x l' end.
(** Assign to a variable. *)
Fixpoint update (x : string) (v : value) (l : env) : option env :=
  match l with
  | [] => None
  | (y, w) :: l' => if String.eqb x y then Some ((y, Some v) :: l') else match update x v l' with Some l'' => Some ((y, w) :: l'') | None => None end
  end.
(** Replace type parameters. *)
Fixpoint subst (te : tenv) (t : rty) : rty :=
  match t with
  | Ty x l => match lookup x te with Some u => u | None => Ty x (map (subst te) l) end
  | TyTuple l => TyTuple (map (subst te) l)
  end.

(** Structs without fields that derive [Default]. *)
Definition unit_structs : list string :=
  Eval vm_compute in
  flat_map (fun i => match i with IStruct ds x [] [] => if existsb (String.eqb "Default") ds then [x] else [] | _ => [] end) crate_items.
(** [Default::default()] of a unit struct. *)
Definition default (t : rty) : option value :=
  match t with
  | Ty x [] => if existsb (String.eqb x) unit_structs then Some (VData x "" []) else None
  | _ => None
  end.
(** The fields of a struct expression. *)
Fixpoint record (te : tenv) (e : env) (l : list (string * rty)) : option (list (string * value)) :=
  match l with
  | [] => Some []
  | (f, t) :: l' =>
      match match lookup f e with Some (Some v) => Some v | Some None => default (subst te t) | None => None end, record te e l' with
      | Some v, Some r => Some ((f, v) :: r)
      | _, _ => None
      end
  end.

(** A [bool]. *)
Definition vbool (b : bool) : ans := Val (VBool b).
(** Operators. *)
Definition binop (op : string) (v w : value) : ans :=
  match v, w with
  | VChr c, VChr d =>
      if String.eqb op "==" then vbool (N.eqb c d)
      else if String.eqb op "!=" then vbool (negb (N.eqb c d))
      else if String.eqb op "<=" then vbool (N.leb c d)
      else Stuck
  | _, _ => Stuck
  end.
(** Methods of the standard library. *)
Definition method (v : value) (m : string) (l : list value) : ans :=
  match v, l with
  | VChr c, [] =>
      if String.eqb m "is_ascii_alphabetic" then vbool (is_ascii_alphabetic c)
      else if String.eqb m "is_ascii_alphanumeric" then vbool (is_ascii_alphanumeric c)
      else if String.eqb m "is_ascii_digit" then vbool (is_ascii_digit c)
      else if String.eqb m "is_ascii_hexdigit" then vbool (is_ascii_hexdigit c)
      else Stuck
  | VStr s, [] =>
      if String.eqb m "as_bytes" then Val (VBytes s)
      else if String.eqb m "is_empty" then vbool (match s with [] => true | _ => false end)
      else Stuck
  | VBytes s, [] =>
      if String.eqb m "first" then Val (match s with [] => VCon "None" [] | c :: _ => VCon "Some" [VChr (first_byte c)] end) else Stuck
  | VCon c a, [] => if String.eqb m "is_some" then vbool (String.eqb c "Some") else Stuck
  | VCon c a, [d] =>
      if String.eqb m "unwrap_or" then
        match a with
        | [] => if String.eqb c "None" then Val d else Stuck
        | [x] => if String.eqb c "Some" then Val x else Stuck
        | _ => Stuck
        end
      else Stuck
  | _, _ => Stuck
  end.

(** What is called: [<t as Parse>::parse], a function. *)
Inductive callee : Set := CParse (t : rty) | CFn (f : string).

Section Eval.
Context (fuel : nat) (cl : callee -> list value -> ans) (te : tenv) (self : string).
(** The input of a parser inside a macro of nom. *)
Definition inp (j : text) (e : env) : env := ("$in", Some (VStr j)) :: e.
(** What a statement does. *)
Inductive sans : Type := SEnv (e : env) | SPanic | SStuck.
(** The variables after a block. *)
Definition leave (e : env) (r : sans) : sans :=
  match r with SEnv e' => SEnv (skipn (length e' - length e) e') | _ => r end.
(** The result of [many0!] and [separated_list!]. *)
Definition vec (r : res text (list value)) : res text value := match r with Ok i l => Ok i (VVec l) | Err e => Err e | Diverge => Diverge end.
(** The result of [opt!]. *)
Definition vopt (r : res text (option value)) : res text value :=
  match r with Ok i (Some v) => Ok i (VCon "Some" [v]) | Ok i None => Ok i (VCon "None" []) | Err e => Err e | Diverge => Diverge end.
(** A result that is a [&str]. *)
Definition vtext (r : res text text) : res text value := match r with Ok i s => Ok i (VStr s) | Err e => Err e | Diverge => Diverge end.
(** A result that is a [char]. *)
Definition vchar (r : res text N) : res text value := match r with Ok i s => Ok i (VChr s) | Err e => Err e | Diverge => Diverge end.

(** Expressions, match arms and statements.  The macros of nom are those of Nom.v, as in the hand-written model. *)
Fixpoint eval (e : env) (x : expr) : ans :=
  let sub (e : env) (p : expr) (j : text) : res text value := unlift (eval (inp j e) p) in
  let app (f : expr) (v : value) : ans :=
    match f with
    | EClo p b => match bindp p v with Some e' => eval (e' ++ e) b | None => Stuck end
    | _ => Stuck
    end in
  let on i (k : text -> ans) : ans := match eval e i with Val (VStr j) => k j | Val _ => Stuck | a => a end in
  match x with
  | EVar y => match lookup y e with Some (Some v) => Val v | _ => Stuck end
  | EStr s => Val (VStr (str s))
  | EChar c => Val (VChr (chr c))
  | EBool b => vbool b
  | ETuple l => match evals e l with inl vs => Val (VTup vs) | inr a => a end
  | ECon c l => match evals e l with inl vs => Val (con c vs) | inr a => a end
  | ENew t v l => match evals e l with
                  | inl [] => Val (VData t v [])
                  | inl [a] => Val (VData t v [("0", a)])
                  | inl _ => Stuck
                  | inr a => a
                  end
  | ERecord l => match record te e l with Some fs => Val (VData self "" fs) | None => Stuck end
  | EParse t a => match eval e a with Val v => cl (CParse (subst te t)) [v] | r => r end
  | ECall f l =>
      match evals e l with
      | inl vs => if String.eqb f "is_alphanumeric" then match vs with [VChr c] => vbool (is_alphanumeric c) | _ => Stuck end else cl (CFn f) vs
      | inr a => a
      end
  | ENom f a i =>
      on i (fun j =>
        let pred (c : N) : bool := match app a (VChr c) with Val (VBool b) => b | _ => false end in
        if String.eqb f "take_while" then lift (vtext (take_while pred j))
        else if String.eqb f "take_while1" then lift (vtext (take_while1 pred j))
        else match eval e a with
             | Val (VStr s) =>
                 if String.eqb f "tag" then lift (vtext (tag s j))
                 else if String.eqb f "take_until" then lift (vtext (take_until s j))
                 else if String.eqb f "one_of" then lift (vchar (one_of s j))
                 else Stuck
             | Val (VChr c) => if String.eqb f "char" then lift (vchar (pchar c j)) else Stuck
             | _ => Stuck
             end)
  | EMethod a m l =>
      match eval e a with
      | Val v => match evals e l with inl vs => method v m vs | inr r => r end
      | r => r
      end
  | EBin op a b =>
      match eval e a with
      | Val v =>
          if String.eqb op "||" then match v with VBool true => vbool true | VBool false => eval e b | _ => Stuck end
          else if String.eqb op "&&" then match v with VBool true => eval e b | VBool false => vbool false | _ => Stuck end
          else match eval e b with Val w => binop op v w | r => r end
      | r => r
      end
  | EMatch a l => match eval e a with Val v => eval_arms e v l | r => r end
  | EBlock l a => match exec e l with SEnv e' => eval e' a | SPanic => Panic | SStuck => Stuck end
  | EStep i p y k =>
      on i (fun j => match sub e p j with
                     | Ok r v => eval (inp r ((y, Some v) :: e)) k
                     | Err er => Val (verr er)
                     | Diverge => Stuck
                     end)
  | EDone i a => on i (fun j => match eval e a with Val v => Val (vok j v) | r => r end)
  | EAlt i p q => on i (fun j => lift (alt_or (sub e p) (sub e q) j))
  | EAltEnd i => on i (fun j => lift (alt_end j))
  | EOpt i p => on i (fun j => lift (vopt (opt (sub e p) j)))
  | EMany0 i p => on i (fun j => lift (vec (many0 text_eqb (fuel + S (length j)) (sub e p) j)))
  | ERecognize i p => on i (fun j => lift (vtext (recognize (sub e p) j)))
  | EMap i p f =>
      on i (fun j => match sub e p j with
                     | Ok r v => match app f v with Val w => Val (vok r w) | a => a end
                     | Err er => Val (verr er)
                     | Diverge => Stuck
                     end)
  | ECond i c p =>
      on i (fun j => match eval e c with
                     | Val (VBool true) => match sub e p j with
                                           | Ok r v => Val (vok r (VCon "Some" [v]))
                                           | Err er => Val (verr er)
                                           | Diverge => Stuck
                                           end
                     | Val (VBool false) => Val (vok j (VCon "None" []))
                     | _ => Stuck
                     end)
  | ESepList i p q => on i (fun j => lift (vec (separated_list text_eqb (fuel + S (length j)) (sub e p) (sub e q) j)))
  | ESepList1 i p q => on i (fun j => lift (vec (separated_nonempty_list text_eqb (fuel + S (length j)) (sub e p) (sub e q) j)))
  | ETerminated i p q =>
      on i (fun j => lift (bind (sub e p) (fun v => bind (sub e q) (fun _ => ret v)) j))
  | ESelf _ | EClo _ _ | EPath _ | EDefault => Stuck
  end
with evals (e : env) (l : exprs) : list value + ans :=
  match l with
  | Nil => inl []
  | Cons a l' =>
      match eval e a with
      | Val v => match evals e l' with inl vs => inl (v :: vs) | inr r => inr r end
      | r => inr r
      end
  end
with eval_arms (e : env) (v : value) (l : arms) : ans :=
  match l with
  | NoArm => Stuck
  | Arm p a l' => match bindp p v with Some e' => eval (e' ++ e) a | None => eval_arms e v l' end
  end
with exec (e : env) (l : stmts) : sans :=
  match l with
  | SEnd => SEnv e
  | SLet (PVar x) EDefault k => exec ((x, None) :: e) k
  | SLet p a k =>
      match eval e a with
      | Val v => match bindp p v with Some e' => exec (e' ++ e) k | None => SStuck end
      | Panic => SPanic
      | Stuck => SStuck
      end
  | SSet x a k =>
      match eval e a with
      | Val v => match update x v e with Some e' => exec e' k | None => SStuck end
      | Panic => SPanic
      | Stuck => SStuck
      end
  | SIf c b k =>
      match eval e c with
      | Val (VBool true) => match leave e (exec e b) with SEnv e' => exec e' k | r => r end
      | Val (VBool false) => exec e k
      | Val _ => SStuck
      | Panic => SPanic
      | Stuck => SStuck
      end
  | SIfLet p a b k =>
      match eval e a with
      | Val v => match bindp p v with
                 | Some e' => match leave e (exec (e' ++ e) b) with SEnv e'' => exec e'' k | r => r end
                 | None => exec e k
                 end
      | Panic => SPanic
      | Stuck => SStuck
      end
  | SAssert c k =>
      match eval e c with
      | Val (VBool true) => exec e k
      | Val (VBool false) => SPanic
      | Val _ => SStuck
      | Panic => SPanic
      | Stuck => SStuck
      end
  end.
(** Equations. *)
Lemma evals_Nil e : evals e Nil = inl []. Proof. reflexivity. Qed.
Lemma evals_Cons e a l : evals e (Cons a l) =
  match eval e a with
  | Val v => match evals e l with inl vs => inl (v :: vs) | inr r => inr r end
  | r => inr r
  end.
Proof. reflexivity. Qed.
Lemma eval_ECall e f l : eval e (ECall f l) =
  match evals e l with
  | inl vs => if String.eqb f "is_alphanumeric" then match vs with [VChr c] => vbool (is_alphanumeric c) | _ => Stuck end else cl (CFn f) vs
  | inr a => a
  end.
Proof. reflexivity. Qed.
Lemma eval_ETuple e l : eval e (ETuple l) = match evals e l with inl vs => Val (VTup vs) | inr a => a end.
Proof. reflexivity. Qed.
Lemma eval_ECon e c l : eval e (ECon c l) = match evals e l with inl vs => Val (con c vs) | inr a => a end.
Proof. reflexivity. Qed.
Lemma eval_EVar e y : eval e (EVar y) = match lookup y e with Some (Some v) => Val v | _ => Stuck end.
Proof. reflexivity. Qed.
Lemma eval_EMatch e a l : eval e (EMatch a l) = match eval e a with Val v => eval_arms e v l | r => r end.
Proof. reflexivity. Qed.
Lemma eval_arms_Arm e v p a l : eval_arms e v (Arm p a l) = match bindp p v with Some e' => eval (e' ++ e) a | None => eval_arms e v l end.
Proof. reflexivity. Qed.
End Eval.

(** ** Calls *)
(** The [impl Parse] for a type: the type parameters of the [impl] stand for the types in their place. *)
Fixpoint match_ty (vars : list string) (p t : rty) : option tenv :=
  let fix go l m :=
    match l, m with
    | [], [] => Some []
    | x :: l', y :: m' => match match_ty vars x y, go l' m' with Some a, Some b => Some (a ++ b) | _, _ => None end
    | _, _ => None
    end in
  match p with
  | Ty x l =>
      if existsb (String.eqb x) vars then Some [(x, t)]
      else match t with Ty y m => if String.eqb x y then go l m else None | TyTuple _ => None end
  | TyTuple l => match t with TyTuple m => go l m | Ty _ _ => None end
  end.
(** The implementations of [Parse] in the source: type parameters, type, name of the argument, body. *)
Definition parse_impls : list (list string * rty * string * expr) :=
  Eval vm_compute in flat_map (fun i => match i with IParse vs t x e => [(vs, t, x, e)] | _ => [] end) crate_items.
(** The functions of one argument in the source. *)
Definition fns : list (string * (string * expr)) :=
  Eval vm_compute in flat_map (fun i => match i with IFn f [x] e => [(f, (x, e))] | _ => [] end) crate_items.
(** The implementation of [Parse] for a type. *)
Definition find_parse (t : rty) : option (tenv * string * expr) :=
  (fix go l :=
     match l with
     | [] => None
     | (vs, p, x, e) :: l' => match match_ty vs p t with Some te => Some (te, x, e) | None => go l' end
     end) parse_impls.
(** The name of a type. *)
Definition ty_name (t : rty) : string := match t with Ty x _ => x | TyTuple _ => "" end.
(** [n] bounds the depth of calls. *)
Fixpoint call (n : nat) (f : callee) (args : list value) : ans :=
  match n with
  | 0 => Stuck
  | S n =>
      match f, args with
      | CParse t, [v] => match find_parse t with Some (te, x, b) => eval n (call n) te (ty_name t) [(x, Some v)] b | None => Stuck end
      | CFn g, [v] => match lookup g fns with Some (x, b) => eval n (call n) [] "" [(x, Some v)] b | None => Stuck end
      | _, _ => Stuck
      end
  end.
