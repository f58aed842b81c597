(** * The definitions files of /repo/tests/defs, parsed by the model.

    tests/webidl.rs:15-53 parses five files and compares the number of definitions.  Here the model is evaluated on three of
    them; [Eval] computes the number when this file is compiled, and the example compares it with the number in the test.
    (The two largest files, html.webidl and webgpu.webidl, are left out for the time evaluation takes.) *)
From Coq Require Import String Ascii NArith List.
From Verif Require Import Nom Lex Ast Grammar Api WebIDL Standard SourceDefs.
Import ListNotations.

Definition number (s : string) : option nat :=
  match parse (str s) with Parsed l => Some (length l) | _ => None end.
(** The number, and whether the file is derivable in the grammar of the standard. *)
Definition result (s : string) : option nat * bool := (number s, reads webidl webidl_keywords 400 s).

(** tests/defs/streams.webidl; tests/webidl.rs:40-45. *)
Definition streams_result : option nat * bool := Eval vm_compute in result (String.concat "" def_streams).
Example t_streams : streams_result = (Some 37, true).
Proof. reflexivity. Qed.

(** tests/defs/mediacapture-streams.webidl; tests/webidl.rs:32-37. *)
Definition mediacapture_streams_result : option nat * bool := Eval vm_compute in result (String.concat "" def_mediacapture_streams).
Example t_mediacapture_streams : mediacapture_streams_result = (Some 37, true).
Proof. reflexivity. Qed.

(** tests/defs/dom.webidl; tests/webidl.rs:16-21. *)
Definition dom_result : option nat * bool := Eval vm_compute in result (String.concat "" def_dom).
Example t_dom : dom_result = (Some 62, true).
Proof. reflexivity. Qed.
