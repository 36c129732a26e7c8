(* The library as its text says: the files of /repo (Gen/Text.v, Gen/Text<N>.v, copied without change) are taken apart into
   tokens, parsed and run, all within Coq.  Nothing else takes part. *)
From Coq Require Import ZArith List String.
From Verif Require Import Machine.
From Verif.Model Require Import Tables.
From Verif.Cxx Require Import Syntax Semantics Linked Compile.
From Verif.Gen Require Text Text7 Text8 Text9 Text10 Text11 Text12 Text13 Text14 Text15 Text16.
Import ListNotations.
Local Open Scope list_scope.

(* CMakeLists.txt:134-160: which directory is compiled *)
Definition bits_files (v : version) : list (string * list string) :=
  match v with
  | V7 => Text7.files | V8 => Text8.files | V9 => Text9.files | V10 => Text10.files | V11 => Text11.files
  | V12 => Text12.files | V13 => Text13.files | V14 => Text14.files | V15 => Text15.files | V16 => Text16.files
  end.

(* two parts of one program: the second has what the first only declares *)
Definition linked_program (I : implementation) (fuel depth : nat) (P U : option parsed) : calls :=
  match P, U with
  | Some P, Some U =>
    run_linked I (map (fun x => (fst x, initialised I (snd x))) (d_texts P ++ d_texts U) ++ globals I (d_program P))
      (p_funs (d_program P)) (p_decls (d_program P)) (p_funs (d_program U)) fuel depth
  | _, _ => no_calls
  end.

Definition text_call (I : implementation) (v : version) (fuel depth : nat) : calls :=
  linked_program I fuel depth (compile (configured I) Text.files) (compile (configured I) (bits_files v)).

(* as [linked_runs_to] and [linked_leaves] *)
Definition text_runs_to (I : implementation) (v : version) (f : string) (args : list value) (r : outcome value) : Prop :=
  exists n, forall fuel depth, (n <= fuel)%nat -> (n <= depth)%nat ->
  (do a <- text_call I v fuel depth f args; Done (fst a)) = r.
Definition text_leaves (I : implementation) (v : version) (f : string) (args : list value) (r : outcome value) : Prop :=
  exists n, forall fuel depth, (n <= fuel)%nat -> (n <= depth)%nat ->
  (do a <- text_call I v fuel depth f args; match snd a with Some v :: _ => Done v | _ => Undefined end) = r.
