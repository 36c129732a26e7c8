(** A disk with the sources and a build of the library on it. *)
From Coq Require Import ZArith List Bool String Ascii Lia.
From Verif Require Import Model.Make Spec.Install.
From Verif Require Import Proof.InstallFacts Proof.InstallRun Proof.InstallDone Proof.InstallUndo.
From Verif Require Import Proof.InstallGather Proof.InstallRest.
Import ListNotations.
Open Scope string_scope.
Open Scope list_scope.

Definition src : path := ["C:"; "src"].
Definition data_dir : path := ["C:"; "ProgramData"].

(** The content of each file tells where it was made. *)
Definition mark (a : string) (c : string) : list Z :=
  [(if String.eqb a "Win32" then 32 else 64)%Z;
   (if String.eqb c "Release" then 1 else if String.eqb c "Debug" then 2
    else if String.eqb c "RelWithDebInfo" then 3 else 4)%Z].

Definition build_of (a : string) : list (path * node) :=
  (src ++ ["build"; a], Dir) ::
  flat_map (fun c =>
    [(src ++ ["build"; a; c], Dir);
     (src ++ ["build"; a; c; library], File (76%Z :: mark a c));
     (src ++ ["build"; a; c; database], File (80%Z :: mark a c))]) configurations.

Definition before : list (path * node) :=
  [(["C:"], Dir); (data_dir, Dir); (src, Dir); (src ++ ["interface"], Dir); (src ++ ["build"], Dir)] ++
  map (fun h => (src ++ ["interface"; h], File [72%Z])) headers ++
  build_of "Win32" ++ build_of "x64".

Definition disk_of (more : list (path * node)) : disk :=
  {| entries := before ++ more; writable := fun _ => true |}.

Definition parents_there (d : disk) : bool :=
  forallb (fun e => is_dir d (parent (fst e))) (entries d).

Lemma parents_sound : forall d, parents_there d = true -> sound d.
Proof.
  intros d H p x K. unfold parents_there in H. rewrite forallb_forall in H.
  destruct (look d (p ++ [x])) as [n|] eqn:E; [|contradiction].
  assert (F : find_in (entries d) (p ++ [x]) = Some n).
  { unfold look in E. destruct (p ++ [x]) eqn:G; [destruct p; discriminate|assumption]. }
  apply find_in_in in F. specialize (H _ F). cbn [fst] in H. rewrite parent_app in H. now apply is_dir_true.
Qed.

Lemma sound_plain : sound (disk_of []).
Proof. apply parents_sound. vm_compute. reflexivity. Qed.

Definition with_include : disk := disk_of [(data_dir ++ ["include"], Dir)].

Lemma sound_include : sound with_include.
Proof. apply parents_sound. vm_compute. reflexivity. Qed.

Definition run (m : io unit) (d : disk) : outcome unit := fst (m d).
Definition after (m : io unit) (d : disk) : disk := snd (m d).

Lemma run_after : forall m d, run m d = Returned tt -> m d = (Returned tt, after m d).
Proof. intros m d H. unfold run, after in *. destruct (m d) as [r d']. cbn in *. now subst. Qed.

Lemma plain_installs : run (install data_dir src) (disk_of []) = Returned tt.
Proof. vm_compute. reflexivity. Qed.

Lemma include_installs : run (install data_dir src) with_include = Returned tt.
Proof. vm_compute. reflexivity. Qed.

(** The library of the wrong architecture. *)
Lemma wrong_library : exists prefix here d d' t s,
  sound d /\ install prefix here d = (Returned tt, d') /\ belongs t s /\
  look d' (prefix ++ s) <> look d (here ++ t).
Proof.
  exists data_dir, src, (disk_of []), (after (install data_dir src) (disk_of [])),
    (built "Win32" "MinSizeRel" library), (installed "Win32" "MinSizeRel" library).
  split; [exact sound_plain|]. split; [apply run_after, plain_installs|].
  split; [apply belongs_library; cbv; tauto|]. vm_compute. discriminate.
Qed.

(** An empty directory that was there is not there afterwards. *)
Lemma not_all_back : exists prefix here d d1 d2 p,
  sound d /\ (forall s, our_file s -> look d (prefix ++ s) = None) /\
  install prefix here d = (Returned tt, d1) /\ uninstall prefix d1 = (Returned tt, d2) /\
  look d p = Some Dir /\ look d2 p = None.
Proof.
  exists data_dir, src, with_include, (after (install data_dir src) with_include),
    (after (uninstall data_dir) (after (install data_dir src) with_include)), (data_dir ++ ["include"]).
  split; [exact sound_include|]. split.
  - intros s Hs. apply our_file_in in Hs.
    assert (K : forallb (fun s => match look with_include (data_dir ++ s) with None => true | _ => false end) all_files = true)
      by (vm_compute; reflexivity).
    rewrite forallb_forall in K. specialize (K s Hs). destruct (look with_include (data_dir ++ s)); [discriminate|reflexivity].
  - split; [apply run_after, include_installs|]. split; [apply run_after; vm_compute; reflexivity|].
    split; vm_compute; reflexivity.
Qed.

(** A file of ours that was there before is not there afterwards either. *)
Definition with_header : disk :=
  disk_of [(data_dir ++ ["include"], Dir); (data_dir ++ ["include"; "ansak"], Dir);
           (data_dir ++ ["include"; "ansak"; "string.hxx"], File [1%Z]);
           (data_dir ++ ["include"; "other.h"], File [2%Z])].

(** Something is done before an unknown target is found. *)
Lemma late_refusal : exists (act : string -> io unit) l d d',
  In "instal" l /\ ~ In "instal" targets /\
  process act l d = (Raised Failed, d') /\ look d' ["done"] <> look d ["done"].
Proof.
  exists (fun _ => mkdir ["done"]), ["clean"; "instal"], (disk_of []), (put (disk_of []) ["done"] Dir).
  split; [now right; left|]. split.
  - intro H. cbv in H. repeat (destruct H as [H|H]; [discriminate|]). assumption.
  - split; [reflexivity|]. vm_compute. discriminate.
Qed.

(** * The theorems in the words of the tables *)

Lemma belongs_comes : forall t s, belongs t s -> s <> installed "Win32" "MinSizeRel" library -> comes_from s = t.
Proof.
  intros t s B N. destruct B; unfold architectures, configurations, headers, debugged in *; in_list;
    first [reflexivity | contradiction N; reflexivity].
Qed.

Lemma installed_right : forall prefix here d d' t s, install prefix here d = (Returned tt, d') ->
  belongs t s -> s <> installed "Win32" "MinSizeRel" library ->
  exists data, look d (here ++ t) = Some (File data) /\ look d' (prefix ++ s) = Some (File data).
Proof.
  intros prefix here d d' t s H B N. destruct (install_done _ _ _ _ H) as (_ & F & _ & _ & E & _).
  assert (O : our_file s) by (exists t; assumption).
  destruct (E s O) as ((data & D) & _). rewrite (belongs_comes t s B N) in D.
  exists data. split; [assumption|]. rewrite F, (belongs_comes t s B N) by assumption. assumption.
Qed.

Lemma installed_directories : forall prefix here d d' s, install prefix here d = (Returned tt, d') ->
  our_directory s -> look d' (prefix ++ s) = Some Dir.
Proof. intros prefix here d d' s H O. destruct (install_done _ _ _ _ H) as (_ & _ & D & _). now apply D. Qed.

Lemma installed_wrong : forall prefix here d d', install prefix here d = (Returned tt, d') ->
  exists data, look d (here ++ built "x64" "MinSizeRel" library) = Some (File data) /\
               look d' (prefix ++ installed "Win32" "MinSizeRel" library) = Some (File data).
Proof.
  intros prefix here d d' H. destruct (install_done _ _ _ _ H) as (_ & F & _ & _ & E & _).
  assert (O : our_file (installed "Win32" "MinSizeRel" library)).
  { eexists. apply belongs_library; cbv; tauto. }
  destruct (E _ O) as ((data & D) & _). exists data. split; [exact D|]. rewrite F by assumption. exact D.
Qed.

Lemma install_keeps : forall prefix here d r d', install prefix here d = (r, d') ->
  untouched_but (ours prefix) d d' /\ (sound d -> sound d').
Proof.
  intros prefix here d r d' H. split; [eapply install_any; eassumption|eapply install_sound; eassumption].
Qed.

Lemma uninstall_keeps : forall prefix d r d', uninstall prefix d = (r, d') ->
  untouched_but (ours prefix) d d' /\ (forall p, look d' p = look d p \/ look d' p = None) /\ (sound d -> sound d').
Proof.
  intros prefix d r d' H. destruct (uninstall_any _ _ _ _ H). split; [assumption|]. split; [assumption|].
  eapply uninstall_sound; eassumption.
Qed.

Lemma install_needs : forall prefix here d d', install prefix here d = (Returned tt, d') ->
  (forall s, our_directory s -> look d (prefix ++ s) = Some Dir \/
     (look d (prefix ++ s) = None /\ writable d (prefix ++ s) = true)) /\
  (forall s, our_file s -> look d (prefix ++ s) <> Some Dir /\ writable d (prefix ++ s) = true) /\
  (forall t s, belongs t s -> s <> installed "Win32" "MinSizeRel" library ->
     exists data, look d (here ++ t) = Some (File data)).
Proof.
  intros prefix here d d' H. destruct (install_done _ _ _ _ H) as (_ & _ & _ & _ & E & F).
  split; [|split].
  - intros s O. destruct (F s O); auto.
  - intros s O. destruct (E s O) as (_ & A & B). auto.
  - intros t s B N. destruct (installed_right _ _ _ _ _ _ H B N) as (data & D & _). eauto.
Qed.

Lemma gathered_right : forall here d d' t s, gather here d = (Returned tt, d') -> belongs t s ->
  exists data, look d' (here ++ ["build"; "nsis"] ++ s) = Some (File data) /\
    (look d (here ++ t) = Some (File data) \/
     exists a, In a architectures /\ t = built a "RelWithDebInfo" database /\
       is_file d (here ++ t) = false /\
       look d (here ++ ["build"; a; "ansakString.dir"; "RelWithDebInfo"; database]) = Some (File data)).
Proof.
  intros here d d' t s H B. destruct (gather_done _ _ _ H) as (_ & F & _).
  assert (O : our_file s) by (exists t; assumption).
  destruct (F s O) as ((data & D) & L). rewrite D in L. unfold nsis_root in L. rewrite <- app_assoc in L.
  exists data. split; [exact L|]. clear F L O.
  assert (K : gathered_from here d s = t \/ exists a, In a architectures /\ t = built a "RelWithDebInfo" database /\
    s = installed a "RelWithDebInfo" database).
  { destruct B; unfold architectures, configurations, headers, debugged in *; in_list;
      first [ left; reflexivity | right; eexists; split; [|split; reflexivity]; cbv; tauto ]. }
  destruct K as [K|(a & Ha & -> & ->)]; [left; now rewrite <- K|].
  assert (G : gathered_from here d (installed a "RelWithDebInfo" database) =
    if is_file d (here ++ built a "RelWithDebInfo" database) then built a "RelWithDebInfo" database else spare a)
    by reflexivity.
  rewrite G in D. destruct (is_file d (here ++ built a "RelWithDebInfo" database)) eqn:E; [now left|].
  right. exists a. auto.
Qed.

Lemma gather_untouched : forall here d d', gather here d = (Returned tt, d') ->
  untouched_but (fun p => p = here ++ ["build"; "nsis"] \/ ours (here ++ ["build"; "nsis"]) p) d d'.
Proof.
  intros here d d' H. destruct (gather_done _ _ _ H) as (W & _ & _ & U). split; [assumption|].
  intros p K. apply U; intro; apply K; auto.
Qed.

Lemma version_six : exists n, package_name n = "ansak-string-u6-setup.exe" /\ bits_dir (decimal n) = "source/bits16".
Proof. exists 6%Z. split; reflexivity. Qed.

Lemma clean_fails : exists here package d d' r, sound d /\ clean here false package d = (r, d') /\
  look d' (here ++ ["build"; "x64"]) = Some Dir /\ run (clean here true package) d = Returned tt.
Proof.
  exists src, "p", (disk_of []), (disk_of []), (Raised NoKey). split; [exact sound_plain|].
  split; [reflexivity|]. vm_compute. repeat split.
Qed.

Lemma cxx_wrong : exists s i, s <> "" /\ cxx (Some s) i <> Some s.
Proof. exists "cl", None. split; vm_compute; discriminate. Qed.

(** * Cases *)

Lemma ours_case : ours data_dir (data_dir ++ ["include"; "ansak"]) /\
  ~ ours data_dir (data_dir ++ ["include"; "ansak"; "mine.hxx"]) /\ sound (disk_of []).
Proof.
  split; [|split; [|exact sound_plain]].
  - exists ["include"; "ansak"]. split; [reflexivity|]. right. constructor.
  - intros (s & E & H). apply app_inv_head in E. subst s.
    assert (K : in_paths ["include"; "ansak"; "mine.hxx"] (all_files ++ all_dirs) = true).
    { apply in_paths_true, in_or_app. destruct H; [left; now apply our_file_in|right; now apply our_directory_in]. }
    vm_compute in K. discriminate.
Qed.

Lemma uninstall_case : sound with_header /\ run (uninstall data_dir) with_header = Returned tt /\
  look (after (uninstall data_dir) with_header) (data_dir ++ ["include"; "ansak"]) = None /\
  look (after (uninstall data_dir) with_header) (data_dir ++ ["include"]) = Some Dir.
Proof. split; [apply parents_sound; vm_compute; reflexivity|]. vm_compute. repeat split. Qed.

Lemma undone_case : sound (disk_of []) /\
  (forall s, our_file s -> look (disk_of []) (data_dir ++ s) = None) /\
  (forall s, our_directory s -> look (disk_of []) (data_dir ++ s) <> Some Dir \/ occupied (disk_of []) (data_dir ++ s)) /\
  run (install data_dir src) (disk_of []) = Returned tt.
Proof.
  split; [exact sound_plain|]. split; [|split; [|exact plain_installs]].
  - intros s Hs. apply our_file_in in Hs.
    assert (K : forallb (fun s => match look (disk_of []) (data_dir ++ s) with None => true | _ => false end) all_files = true)
      by (vm_compute; reflexivity).
    rewrite forallb_forall in K. specialize (K s Hs). destruct (look (disk_of []) (data_dir ++ s)); [discriminate|reflexivity].
  - intros s Hs. left. apply our_directory_in in Hs.
    assert (K : forallb (fun s => match look (disk_of []) (data_dir ++ s) with None => true | _ => false end) all_dirs = true)
      by (vm_compute; reflexivity).
    rewrite forallb_forall in K. specialize (K s Hs). destruct (look (disk_of []) (data_dir ++ s)); discriminate.
Qed.
