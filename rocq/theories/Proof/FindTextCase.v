(** The text of FindANSAK.cmake: consequences and cases. *)
From Coq Require Import ZArith List Bool String Ascii Lia.
From Verif Require Import Gen.TextScripts Model.Make Model.Find Model.Cmake Model.FindText Spec.Install Spec.Unix Spec.Find.
From Verif Require Import Proof.CmakePaths Proof.Find Proof.FindCase Proof.FindRest.
Import ListNotations.
Open Scope string_scope.
Open Scope list_scope.

Lemma text_never_stuck : forall s d vs env, stands_for s vs env -> ordinary s -> run_text FindANSAK_cmake s d vs env <> Stuck.
Proof.
  intros s d vs env S O E. pose proof (find_text_runs s d vs env S O) as R. rewrite E in R.
  destruct (find_ansak s d); cbn in R; [discriminate|destruct R as (? & R & _); discriminate..].
Qed.

Lemma text_found : forall s d vs env r, stands_for s vs env -> ordinary s -> unix s = true -> ansak_dir s = Some r ->
  there d (r ++ archive_file) -> there d (main_header r) -> clear s d Find.Library archive -> clear s d Find.Header "string.hxx" ->
  exists st, run_text FindANSAK_cmake s d vs env = Went st /\ value st "ANSAK_FOUND" = Some "True" /\
    value st "ANSAK_STRING_LIB" = Some (spell (r ++ archive_file)).
Proof.
  intros s d vs env r S O U A T1 T2 C1 C2. pose proof (find_text_runs s d vs env S O) as R.
  destruct (unix_found s d r U A T1 T2 C1 C2) as (f & F & L & _). rewrite F in R.
  destruct R as (st & E & _ & V1 & V2 & _). exists st. split; [exact E|]. split; [exact V1|]. rewrite V2, L.
  unfold archive_file. now destruct r.
Qed.

Lemma text_environment : forall s d vs env r st, stands_for s vs env -> ordinary s -> unix s = true -> ansak_dir s = None -> env_ansak_dir s = Some r ->
  run_text FindANSAK_cmake s d vs env = Went st -> value st "ANSAK_STRING_LIB" = Some "".
Proof.
  intros s d vs env r st S O U A E W. pose proof (find_text_runs s d vs env S O) as R. rewrite W in R.
  destruct (unix_environment s d r U A E) as (K & _).
  destruct (find_ansak s d) as [| |f] eqn:F; cbn in R; [discriminate|destruct R as (? & R & _); discriminate|].
  destruct R as (st' & X & _ & _ & V & _). inversion X; subst st'. now rewrite V, (K f eq_refl).
Qed.

Lemma text_included : forall s d vs env st, stands_for s vs env -> ordinary s ->
  run_text FindANSAK_cmake s d vs env = Went st -> forall x, In x (incs st) -> x = "ANSAK_INCLUDE".
Proof.
  intros s d vs env st S O W. pose proof (find_text_runs s d vs env S O) as R. rewrite W in R.
  destruct (find_ansak s d) as [| |f] eqn:F; cbn in R; [discriminate|destruct R as (? & R & _); discriminate|].
  destruct R as (st' & X & _ & _ & _ & _ & _ & _ & _ & I). inversion X; subst st'. rewrite I. exact (literal s d f F).
Qed.

(** * Cases *)
Definition given (l : list (string * string)) (x : string) : option string :=
  match find (fun p => String.eqb (fst p) x) l with Some (_, v) => Some v | None => None end.

Definition linux_vars : string -> option string := given [("UNIX", "1"); ("CMAKE_GENERATOR", "Unix Makefiles"); ("ANSAK_DIR", "/opt/ansak")].
Definition windows_vars : string -> option string :=
  given [("CMAKE_GENERATOR", "Visual Studio 17 2022"); ("CMAKE_GENERATOR_PLATFORM", "x64"); ("ANSAK_DIR", "C:/ansak")].
Definition no_env (x : string) : string := "".
Definition opt_env (x : string) : string := if String.eqb x "ANSAK_DIR" then "/opt/ansak" else "".
Definition bare_vars : string -> option string := given [("UNIX", "1"); ("CMAKE_GENERATOR", "Unix Makefiles")].

Lemma only_given : forall l, (forall p, In p l -> In (fst p) inputs) -> forall x, given l x <> None -> In x inputs.
Proof.
  intros l H x N. unfold given in N. destruct (find _ l) as [(a, v)|] eqn:F; [|contradiction].
  apply find_some in F as (I & E). apply String.eqb_eq in E. cbn in E. subst. exact (H _ I).
Qed.

Ltac just_given := apply only_given; cbn; intros p I; repeat destruct I as [<-|I]; try contradiction; cbn; tauto.

Lemma linux_stands : stands_for (linux (Some opt) None) linux_vars no_env.
Proof. constructor; try reflexivity; [repeat split|just_given]. Qed.

Lemma bare_stands : stands_for (linux None (Some opt)) bare_vars opt_env.
Proof. constructor; try reflexivity; [repeat split|just_given]. Qed.

Lemma windows_stands : stands_for (windows "x64" (Some at_c) false) windows_vars no_env.
Proof. constructor; try reflexivity; [repeat split|just_given]. Qed.

Ltac proper_list := repeat constructor; discriminate.

Lemma linux_ordinary : forall a b, In a [None; Some opt] -> In b [None; Some opt] -> ordinary (linux a b).
Proof.
  intros a b A B. constructor; cbn.
  - intros [] x I; cbn in I; repeat destruct I as [<-|I]; try contradiction; proper_list.
  - intros c I. assert (E : c = opt) by (cbn in A, B; intuition congruence). subst. proper_list.
  - intros x I. cbn in I. repeat destruct I as [<-|I]; try contradiction; cbn; tauto.
  - intros x I. cbn in I. repeat destruct I as [<-|I]; try contradiction; (split; [cbn; tauto|discriminate]).
  - split; [discriminate|reflexivity].
Qed.

Lemma windows_ordinary : forall p b, ordinary (windows p (Some at_c) b).
Proof.
  intros p b. constructor; cbn.
  - intros k x [].
  - intros c I. assert (E : c = at_c) by intuition congruence. subst. proper_list.
  - intros x [].
  - intros x [].
  - split; [discriminate|reflexivity].
Qed.

Definition amd64_disk : disk := disk_with [main_header at_c; at_c ++ ["lib"; "amd64"; "Debug"; library]].

Definition shows (o : outcome) (l : list (string * option string)) : bool :=
  match o with
  | Went st => forallb (fun p => match value st (fst p), snd p with Some a, Some b => String.eqb a b | None, None => true | _, _ => false end) l
  | _ => false
  end.

Lemma shown : forall o l, shows o l = true -> exists st, o = Went st /\ forall x v, In (x, v) l -> value st x = v.
Proof.
  intros [st| | |] l E; try discriminate. exists st. split; [reflexivity|]. intros x v I. cbn in E. rewrite forallb_forall in E.
  specialize (E _ I). cbn in E. destruct (value st x), v; try discriminate; [|reflexivity]. apply String.eqb_eq in E. now subst.
Qed.

Lemma linux_runs : exists st, run_text FindANSAK_cmake (linux (Some opt) None) in_opt linux_vars no_env = Went st /\
  forall x v, In (x, v) [("ANSAK_STRING_LIB", Some "/opt/ansak/lib/libansakString.a"); ("ANSAK_INCLUDE", Some "/opt/ansak/include"); ("ANSAK_LIB", None)] -> value st x = v.
Proof. apply shown. vm_compute. reflexivity. Qed.

Lemma windows_runs : exists st, run_text FindANSAK_cmake (windows "x64" (Some at_c) false) amd64_disk windows_vars no_env = Went st /\
  forall x v, In (x, v) [("ANSAK_STRING_LIB", Some "C:/ansak/lib/amd64/$<CONFIG>/ansakString.lib"); ("ANSAK_LIB_BY_GENERATOR", Some "True")] -> value st x = v.
Proof. apply shown. vm_compute. reflexivity. Qed.

(** ANSAK_DIR in the environment, a library and a header there, and another header in the system's directories *)
Definition with_header : disk := disk_with [opt ++ archive_file; main_header opt; ["usr"; "include"; "string.hxx"]].

Lemma environment_lost : exists s d vs env st, stands_for s vs env /\ ordinary s /\ env "ANSAK_DIR" = "/opt/ansak" /\ there d (opt ++ archive_file) /\
  run_text FindANSAK_cmake s d vs env = Went st /\ value st "ANSAK_FOUND" = Some "True" /\ value st "ANSAK_STRING_LIB" = Some "".
Proof.
  assert (E : shows (run_text FindANSAK_cmake (linux None (Some opt)) with_header bare_vars opt_env) [("ANSAK_FOUND", Some "True"); ("ANSAK_STRING_LIB", Some "")] = true)
    by (vm_compute; reflexivity).
  apply shown in E as (st & E & V). exists (linux None (Some opt)), with_header, bare_vars, opt_env, st.
  split; [exact bare_stands|]. split; [apply linux_ordinary; cbn; tauto|]. split; [reflexivity|]. split; [eexists; reflexivity|].
  split; [exact E|]. split; apply V; cbn; tauto.
Qed.
