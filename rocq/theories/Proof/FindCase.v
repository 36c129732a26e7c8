(** FindANSAK.cmake on small disks. *)
From Coq Require Import ZArith List Bool String Ascii.
From Verif Require Import Model.Make Model.Unix Model.Nsis Model.Find Spec.Install Spec.Unix Spec.Find.
From Verif Require Import Proof.InstallCase Proof.UnixCase Proof.NsisCase Proof.Find.
Import ListNotations.
Open Scope string_scope.
Open Scope list_scope.

Definition system_dirs (k : kind) : list path :=
  match k with Library => [["usr"; "lib"]; ["usr"; "local"; "lib"]] | Header => [["usr"; "include"]; ["usr"; "local"; "include"]] end.

(** cmake on Linux, with ANSAK_DIR given as [var] or in the environment *)
Definition linux (var env : option path) : settings :=
  {| unix := true; platform := ""; generator := "Unix Makefiles"; ansak_dir := var; env_ansak_dir := env;
     program_data := None; env_program_data := None; isolate := false; sqlite3 := false; no_generator_libs := false;
     earlier := fun _ => []; later := system_dirs |}.

(** cmake on Windows *)
Definition windows (p : string) (var : option path) (b : bool) : settings :=
  {| unix := false; platform := p; generator := "Visual Studio 17 2022"; ansak_dir := var; env_ansak_dir := None;
     program_data := None; env_program_data := None; isolate := false; sqlite3 := false; no_generator_libs := b;
     earlier := fun _ => []; later := fun _ => [] |}.

Definition disk_with (l : list path) : disk :=
  {| entries := map (fun p => (p, File [7%Z])) l; writable := fun _ => true |}.

Definition opt : path := ["opt"; "ansak"].
Definition in_opt : disk := disk_with [opt ++ archive_file; main_header opt].

Lemma env_lost : exists s d r, unix s = true /\ ansak_dir s = None /\ env_ansak_dir s = Some r /\
  there d (r ++ archive_file) /\ there d (main_header r) /\ clear s d Library archive /\ clear s d Header "string.hxx" /\
  find_ansak s d = SendError.
Proof.
  exists (linux None (Some opt)), in_opt, opt. repeat split; try (eexists; reflexivity); try (intros ? []).
Qed.

(** The layouts documented *)
Definition at_c : path := ["C:"; "ansak"].

Lemma case_1_lost : exists s d r, unix s = false /\ chosen s r /\ there d (main_header r) /\ clear s d Header "string.hxx" /\
  In (platform s) architectures /\ there d (r ++ ["lib"; library]) /\ find_ansak s d = Fatal.
Proof.
  exists (windows "x64" (Some at_c) false), (disk_with [main_header at_c; at_c ++ ["lib"; library]]), at_c.
  split; [reflexivity|]. split; [now constructor|]. split; [eexists; reflexivity|]. split; [intros ? []|].
  split; [cbn; tauto|]. split; [eexists; reflexivity|reflexivity].
Qed.

Theorem case_1_never : forall s d r, unix s = false -> chosen s r -> In (platform s) platforms ->
  (forall n, ~ there d (r ++ ["lib"; n; "Debug"; library])) -> find_ansak s d = Fatal.
Proof.
  intros s d r U C P N. apply (windows_decisive _ _ _ U C). split; [intros _ n _; apply N|contradiction].
Qed.

Theorem case_2_never : forall s d r, unix s = false -> chosen s r ->
  (forall n, ~ there d (r ++ ["lib"; n; "Debug"; library])) -> ~ there d (r ++ ["lib"; library]) ->
  find_ansak s d = Fatal.
Proof.
  intros s d r U C N M. apply (windows_decisive _ _ _ U C). split; [intros _ n _; apply N|intros _; exact M].
Qed.

Lemma arch_platform : forall p n, architecture p n -> In p platforms.
Proof. intros p n A. destruct A; cbn; tauto. Qed.

Theorem layouts : forall s d r, unix s = false -> chosen s r ->
  ((exists n, architecture (platform s) n /\ there d (r ++ ["lib"; n; "Debug"; library])) \/
   (~ In (platform s) platforms /\ there d (r ++ ["lib"; library]))) ->
  there d (main_header r) -> clear s d Header "string.hxx" ->
  exists f, find_ansak s d = Found f /\ includes f r /\ there d (expand (string_lib f) "Debug") /\
    exists q, layout r (platform s) q /\ expand (string_lib f) "Debug" = q.
Proof.
  intros s d r U C T H CH.
  assert (NF : find_ansak s d <> Fatal).
  { intro E. apply (windows_decisive _ _ _ U C) in E. destruct E as (A & B).
    destruct T as [(n & AR & T)|(P & T)]; [|now apply B].
    now apply (A (arch_platform _ _ AR) n). }
  destruct (windows_right _ _ _ U C CH H NF) as (f & F & I & [(n & A & X & E)|(P & X & E)]); exists f; repeat split; try assumption; try apply I.
  - rewrite E. destruct (visual_studio s); cbn [expand]; [rewrite <- app_assoc|]; exact X.
  - exists (r ++ ["lib"; n; "Debug"; library]). split; [now constructor|]. rewrite E.
    destruct (visual_studio s); cbn [expand]; [now rewrite <- app_assoc|reflexivity].
  - rewrite E. exact X.
  - exists (r ++ ["lib"; library]). split; [constructor|]. now rewrite E.
Qed.

Lemma case_2_lost : exists s d r, unix s = false /\ chosen s r /\ there d (main_header r) /\ clear s d Header "string.hxx" /\
  there d (r ++ ["lib"; "Debug"; library]) /\ forall f, find_ansak s d <> Found f.
Proof.
  exists (windows "" (Some at_c) false), (disk_with [main_header at_c; at_c ++ ["lib"; "Debug"; library]]), at_c.
  split; [reflexivity|]. split; [now constructor|]. split; [eexists; reflexivity|]. split; [intros ? []|].
  split; [eexists; reflexivity|]. intro f. vm_compute. discriminate.
Qed.

(** Only the library for Debug is looked for. *)
Definition debug_only : disk := disk_with [main_header at_c; at_c ++ ["lib"; "x64"; "Debug"; library]].

Lemma release_missing : exists s d f, find_ansak s d = Found f /\ ~ there d (expand (string_lib f) "Release").
Proof.
  exists (windows "x64" (Some at_c) false), debug_only. eexists. split; [vm_compute; reflexivity|]. vm_compute. intros (x & E). discriminate.
Qed.

Lemma switch_ignored : exists s d f dir n, no_generator_libs s = true /\ find_ansak s d = Found f /\ string_lib f = ByConfig dir n.
Proof.
  exists (windows "x64" (Some at_c) true), debug_only. eexists. eexists. eexists.
  split; [reflexivity|]. split; [vm_compute; reflexivity|]. reflexivity.
Qed.

Lemma not_included : exists s d f p, isolate s = false /\ find_ansak s d = Found f /\ include_path f = Some p /\
  there d (p ++ ["ansak"; "string.hxx"]) /\ ~ In (spelt p) (included f).
Proof.
  exists (linux (Some opt) None), in_opt. eexists. exists (opt ++ ["include"]).
  split; [reflexivity|]. split; [vm_compute; reflexivity|]. split; [reflexivity|]. split; [eexists; reflexivity|].
  vm_compute. intros [E|[]]. discriminate.
Qed.

(** CMAKE_PREFIX_PATH comes before ANSAK_DIR. *)
Definition with_prefix_path : settings :=
  {| unix := true; platform := ""; generator := "Unix Makefiles"; ansak_dir := Some opt; env_ansak_dir := None;
     program_data := None; env_program_data := None; isolate := false; sqlite3 := false; no_generator_libs := false;
     earlier := fun k => match k with Library => [["usr"; "lib"]] | Header => [["usr"; "include"]] end; later := system_dirs |}.

Lemma prefix_first : exists s d r f, unix s = true /\ ansak_dir s = Some r /\ there d (r ++ archive_file) /\ there d (main_header r) /\
  find_ansak s d = Found f /\ string_lib f <> Exactly (r ++ archive_file).
Proof.
  exists with_prefix_path, (disk_with [opt ++ archive_file; main_header opt; ["usr"] ++ archive_file; main_header ["usr"]]), opt. eexists.
  split; [reflexivity|]. split; [reflexivity|]. split; [eexists; reflexivity|]. split; [eexists; reflexivity|].
  split; [vm_compute; reflexivity|]. discriminate.
Qed.

Theorem literal : forall s d f, find_ansak s d = Found f -> forall x, In x (included f) -> x = "ANSAK_INCLUDE".
Proof. intros s d f H. apply (reported s d f H). Qed.

Theorem exists_there : forall s d f, find_ansak s d = Found f ->
  (exists x, there d (x ++ ["string.hxx"])) /\
  ((unix s = true -> ansak_dir s = None -> env_ansak_dir s = None) ->
     forall p, string_lib f = Exactly p -> there d p) /\
  (forall p, ansak_lib f = Some (Exactly p) -> there d p) /\
  (forall p, sqlite_lib f = Some (Exactly p) -> there d p /\ sqlite3 s = true).
Proof. intros s d f H. destruct (reported s d f H) as (A & B & C & D & _). auto. Qed.
