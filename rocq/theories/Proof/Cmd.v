(** Lemmas about configure.cmd *)
From Coq Require Import ZArith List Bool String Ascii Lia.
From Verif Require Import Gen.TextCmd Model.Cmake Model.Cmd Spec.Cmd.
Import ListNotations.
Open Scope string_scope.
Open Scope list_scope.

Definition the_commands : list command := Eval vm_compute in match read_cmd configure_cmd with Some p => p | None => [] end.
Lemma read_it : read_cmd configure_cmd = Some the_commands.
Proof. vm_compute. reflexivity. Qed.

Definition python_status (m : machine) (p : string) : Z := match version m p with Some v => v | None => 9009%Z end.

Definition asks (p : string) : list string := [p; "choosep3.py"].
Definition configures (p : string) (args : list string) : list string := p :: "configure.py" :: p :: args.

Lemma plain_first : forall args, plain args ->
  String.eqb (first args) "--help" = false /\ String.eqb (first args) "-h" = false /\ String.eqb (first args) "--python" = false.
Proof.
  intros [|x r] P; [repeat split; reflexivity|]. specialize (P x r eq_refl). cbn [first In] in *.
  repeat split; apply String.eqb_neq; intros ->; tauto.
Qed.

Ltac go := cbn [run from_label the_commands shifted errorlevel ran flat_map put_in app String.eqb Ascii.eqb Bool.eqb status_of first tl].

Lemma run_plain : forall m args, plain args -> run_cmd configure_cmd m args = Some (
  [["cmake.exe"; "--version"]; asks "python"] ++
  if Z.ltb (python_status m "python") 3 then
    [asks "python3"] ++ if Z.ltb (python_status m "python3") 3 then [asks "python"; asks "python3"] else [configures "python3" args]
  else [configures "python" args]).
Proof.
  intros m args P. destruct (plain_first args P) as (A & B & C).
  unfold run_cmd. rewrite read_it. unfold the_commands. do 4 (go; rewrite ?A, ?B, ?C).
  fold (python_status m "python"). destruct (Z.ltb (python_status m "python") 3) eqn:D; go.
  - fold (python_status m "python3"). destruct (Z.ltb (python_status m "python3") 3) eqn:E; go; rewrite ?app_nil_r; reflexivity.
  - rewrite ?app_nil_r. reflexivity.
Qed.

Lemma status_modern : forall m p, there m p -> Z.ltb (python_status m p) 3 = negb (modern m p).
Proof. intros m p T. unfold python_status, modern, there in *. destruct (version m p); [apply Z.ltb_antisym|congruence]. Qed.

Lemma chosen_right : forall m args, plain args -> there m "python" -> (modern m "python" = true \/ there m "python3") ->
  exists r, run_cmd configure_cmd m args = Some r /\
    configuring r = match chosen m with Some p => [p :: "configure.py" :: p :: args] | None => [] end.
Proof.
  intros m args P T U. eexists. split; [apply run_plain; exact P|]. unfold chosen. rewrite (status_modern m "python" T).
  destruct (modern m "python") eqn:M; [reflexivity|]. destruct U as [U|U]; [discriminate|]. rewrite (status_modern m "python3" U).
  destruct (modern m "python3"); reflexivity.
Qed.

Lemma absent_right : forall m args, plain args -> version m "python" = None ->
  exists r, run_cmd configure_cmd m args = Some r /\ configuring r = ["python" :: "configure.py" :: "python" :: args].
Proof.
  intros m args P T. eexists. split; [apply run_plain; exact P|]. unfold python_status. rewrite T. reflexivity.
Qed.

Lemma help_right : forall m x r, In x ["--help"; "-h"] -> run_cmd configure_cmd m (x :: r) = Some [].
Proof.
  intros m x r [<-|[<-|[]]]; unfold run_cmd; rewrite read_it; reflexivity.
Qed.

Lemma given_run : forall m x r, x <> "" -> run_cmd configure_cmd m ("--python" :: x :: r) =
  Some [["cmake.exe"; "--version"]; x :: "configure.py" :: "--python" :: x :: r].
Proof.
  intros m x r N. apply String.eqb_neq in N. unfold run_cmd. rewrite read_it. unfold the_commands. go. rewrite ?N. go. rewrite ?app_nil_r. reflexivity.
Qed.

Lemma given_right : forall m x r, x <> "" -> exists q, run_cmd configure_cmd m ("--python" :: x :: r) = Some q /\
  configuring q = [x :: "configure.py" :: "--python" :: x :: r] /\ takes (snd (entry ("--python" :: x :: r))) = false.
Proof. intros m x r N. eexists. split; [apply given_run; exact N|]. split; reflexivity. Qed.

Lemma harmless_right : forall m args, exists r, run_cmd configure_cmd m args = Some r /\ harmless r.
Proof.
  intros m args.
  assert (D : plain args \/ (exists x r, args = x :: r /\ In x ["--help"; "-h"]) \/ args = ["--python"] \/ (exists r, args = "--python" :: "" :: r) \/
              exists x r, args = "--python" :: x :: r /\ x <> "").
  { destruct args as [|x r]; [left; intros y r; discriminate|].
    destruct (in_dec string_dec x ["--help"; "-h"]) as [I|I]; [right; left; exists x, r; auto|].
    destruct (string_dec x "--python") as [->|N].
    - destruct r as [|y r]; [auto|]. destruct (string_dec y "") as [->|E]; [right; right; right; left; exists r; reflexivity|].
      right. right. right. right. exists y, r. auto.
    - left. intros y s E. injection E as <- <-. cbn in *. intuition congruence. }
  destruct D as [P|[(x & r & -> & I)|[->|[(r & ->)|(x & r & -> & N)]]]].
  - eexists. split; [apply run_plain; exact P|]. intros w I. unfold asks, configures in *.
    destruct (Z.ltb (python_status m "python") 3), (Z.ltb (python_status m "python3") 3); cbn in I |- *;
      repeat (destruct I as [<-|I]; [eauto 6|]); destruct I.
  - exists []. split; [apply help_right; exact I|]. intros w [].
  - exists [["cmake.exe"; "--version"]]. split; [unfold run_cmd; rewrite read_it; reflexivity|]. intros w [<-|[]]. auto.
  - exists [["cmake.exe"; "--version"]]. split; [unfold run_cmd; rewrite read_it; reflexivity|]. intros w [<-|[]]. auto.
  - eexists. split; [apply given_run; exact N|]. intros w I. cbn in I |- *. repeat (destruct I as [<-|I]; [eauto 6|]). destruct I.
Qed.

Lemma kept_right : forall m p args, chosen m = Some p -> entry (p :: args) = (p, args).
Proof.
  intros m p args C. unfold chosen in C. destruct (modern m "python"); [injection C as <-; reflexivity|].
  destruct (modern m "python3"); [injection C as <-; reflexivity|discriminate].
Qed.

Definition with_pythons (a b : option Z) : machine :=
  {| version := fun x => if String.eqb x "python" then a else if String.eqb x "python3" then b else None; status := fun _ => 0%Z |}.
Definition old_and_new : machine := with_pythons (Some 2%Z) (Some 3%Z).
Definition only_python3 : machine := with_pythons None (Some 3%Z).

Lemma only_python3_fails : exists args r, plain args /\ run_cmd configure_cmd only_python3 args = Some r /\ chosen only_python3 = Some "python3" /\
  forall w, In w (configuring r) -> exists q, w = "python" :: q /\ ~ there only_python3 "python".
Proof.
  exists ["--verbose"]. eexists. split.
  - intros x r E. injection E as <- <-. cbn. intuition discriminate.
  - split; [apply run_plain; intros x r E; injection E as <- <-; cbn; intuition discriminate|]. split; [reflexivity|].
    intros w [<-|[]]. eexists. split; [reflexivity|]. intros T. apply T. reflexivity.
Qed.

Lemma given_fails : exists m x r q, modern m x = true /\ run_cmd configure_cmd m ("--python" :: x :: r) = Some q /\
  forall w, In w (configuring q) -> exists argv, w = x :: "configure.py" :: argv /\ takes (snd (entry argv)) = false.
Proof.
  exists only_python3, "python3", ["--verbose"]. eexists. split; [reflexivity|]. split; [apply given_run; discriminate|].
  intros w [<-|[]]. eexists. split; reflexivity.
Qed.
