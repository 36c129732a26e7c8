(** The installer and the uninstaller on the disk of Proof/InstallCase.v. *)
From Coq Require Import ZArith List Bool String Ascii.
From Verif Require Import Model.Make Model.Unix Model.Nsis Spec.Install Spec.Nsis.
From Verif Require Import Proof.InstallFacts Proof.InstallDone Proof.InstallUndo Proof.InstallGather Proof.InstallRest Proof.InstallCase.
From Verif Require Import Proof.Unix Proof.Nsis Proof.NsisDone.
Import ListNotations.
Open Scope string_scope.
Open Scope list_scope.

(** make.py package up to makensis *)
Definition nsis_root : path := src ++ ["build"; "nsis"].

Definition gathered_disk : disk :=
  put (after (gather src) (disk_of [])) (nsis_root ++ cmake_file) (File [70%Z]).

Definition groups_of (o : option (list group)) : list group := match o with Some l => l | None => [] end.
Definition the_package : list group := groups_of (pack nsis_root gathered_disk).

Lemma the_package_packed : pack nsis_root gathered_disk = Some the_package.
Proof. vm_compute. reflexivity. Qed.

(** Another machine *)
Definition machine2 : disk :=
  {| entries := [(["C:"], Dir); (data_dir, Dir); (data_dir ++ ["other.txt"], File [1%Z])]; writable := fun _ => true |}.

Definition after_setup : disk := after (install_section the_package data_dir [85%Z]) machine2.

Lemma machine2_sound : sound machine2.
Proof. apply parents_sound. vm_compute. reflexivity. Qed.

Lemma setup_runs : run (install_section the_package data_dir [85%Z]) machine2 = Returned tt.
Proof. vm_compute. reflexivity. Qed.

Lemma setup_done : install_section the_package data_dir [85%Z] machine2 = (Returned tt, after_setup).
Proof. exact (run_after _ _ setup_runs). Qed.

Lemma gather_runs : run (gather src) (disk_of []) = Returned tt.
Proof. vm_compute. reflexivity. Qed.

Lemma gathered_same : forall p, ours nsis_root p -> look gathered_disk p = look (after (gather src) (disk_of [])) p.
Proof.
  intros p (s & -> & O). unfold gathered_disk. rewrite look_put by discriminate.
  destruct (same (nsis_root ++ cmake_file) (nsis_root ++ s)) eqn:E; [|reflexivity].
  apply same_true, app_inv_head in E. subst s. exfalso.
  destruct O as [(t & O)|O]; inversion O.
Qed.

(** With a header of someone else in include\ansak. *)
Definition with_other : disk := put after_setup (data_dir ++ ["include"; "ansak"; "mine.hxx"]) (File [2%Z]).

Lemma cmake_left : exists inst d data, look d (inst ++ cmake_file) = Some (File data) /\
  writable d (inst ++ cmake_file) = true /\ look (uninstall_section inst d) (inst ++ cmake_file) = Some (File data).
Proof.
  exists data_dir, with_other, [70%Z]. split; [vm_compute; reflexivity|]. split; [vm_compute; reflexivity|].
  rewrite cmake_stays_if; [vm_compute; reflexivity|]. right. exists "mine.hxx". split; [cbn; intuition discriminate|].
  vm_compute. discriminate.
Qed.

Lemma directories_left : exists root d0 pkg inst exe d d1 p, sound d /\ pack root d0 = Some pkg /\
  install_section pkg inst exe d = (Returned tt, d1) /\ (forall p, writable d p = true) /\
  look d p = None /\ look (uninstall_section inst d1) p = Some Dir.
Proof.
  exists nsis_root, gathered_disk, the_package, data_dir, [85%Z], machine2, after_setup, (data_dir ++ ["lib"; "x64"; "Debug"]).
  split; [exact machine2_sound|]. split; [exact the_package_packed|]. split; [exact setup_done|].
  split; [reflexivity|]. split; vm_compute; reflexivity.
Qed.

(** Something left behind by an earlier package goes along and is not removed. *)
Definition stale_disk : disk := put gathered_disk (nsis_root ++ ["include"; "ansak"; "old.hxx"]) (File [9%Z]).
Definition stale_package : list group := groups_of (pack nsis_root stale_disk).

Definition after_stale : disk := after (install_section stale_package data_dir [85%Z]) machine2.

Lemma stale_packed : pack nsis_root stale_disk = Some stale_package.
Proof. vm_compute. reflexivity. Qed.

Lemma stale_runs : run (install_section stale_package data_dir [85%Z]) machine2 = Returned tt.
Proof. vm_compute. reflexivity. Qed.

Lemma stale_done : install_section stale_package data_dir [85%Z] machine2 = (Returned tt, after_stale).
Proof. exact (run_after _ _ stale_runs). Qed.

Lemma stale_look : look (uninstall_section data_dir after_stale) (data_dir ++ ["include"; "ansak"; "old.hxx"]) = Some (File [9%Z]).
Proof. vm_compute. reflexivity. Qed.

Lemma stale_left : exists root d0 pkg inst exe d d1 p data, sound d /\ pack root d0 = Some pkg /\
  install_section pkg inst exe d = (Returned tt, d1) /\ (forall p, writable d p = true) /\
  look d p = None /\ look (uninstall_section inst d1) p = Some (File data).
Proof.
  exists nsis_root, stale_disk, stale_package, data_dir, [85%Z], machine2, after_stale,
    (data_dir ++ ["include"; "ansak"; "old.hxx"]), [9%Z].
  split; [exact machine2_sound|]. split; [exact stale_packed|]. split; [exact stale_done|].
  split; [reflexivity|]. split; [vm_compute; reflexivity|exact stale_look].
Qed.

(** * make.py install and the installer *)

Theorem same_files : forall here prefix d d1 g1 g2 pkg inst exe e e' t s,
  install prefix here d = (Returned tt, d1) ->
  gather here d = (Returned tt, g1) ->
  (forall p, ours (here ++ ["build"; "nsis"]) p -> look g2 p = look g1 p) ->
  pack (here ++ ["build"; "nsis"]) g2 = Some pkg ->
  install_section pkg inst exe e = (Returned tt, e') ->
  belongs t s -> s <> installed "Win32" "MinSizeRel" library ->
  look e' (inst ++ s) = look d1 (prefix ++ s) /\ look e' (inst ++ s) <> None.
Proof.
  intros here prefix d d1 g1 g2 pkg inst exe e e' t s I G A P S B N.
  destruct (installed_right _ _ _ _ _ _ I B N) as (data & L1 & L2).
  destruct (packaged _ _ _ _ _ _ _ _ _ _ _ G A P S B) as (data' & M1 & [M2|(a & _ & _ & M2 & _)]).
  - split; congruence.
  - unfold is_file in M2. rewrite L1 in M2. discriminate.
Qed.

Lemma not_same : exists here prefix d d1 g1 g2 pkg inst exe e e' t s,
  install prefix here d = (Returned tt, d1) /\
  gather here d = (Returned tt, g1) /\
  (forall p, ours (here ++ ["build"; "nsis"]) p -> look g2 p = look g1 p) /\
  pack (here ++ ["build"; "nsis"]) g2 = Some pkg /\
  install_section pkg inst exe e = (Returned tt, e') /\
  belongs t s /\ look e' (inst ++ s) <> look d1 (prefix ++ s).
Proof.
  exists src, data_dir, (disk_of []), (after (install data_dir src) (disk_of [])),
    (after (gather src) (disk_of [])), gathered_disk, the_package, data_dir, [85%Z], machine2, after_setup,
    (built "Win32" "MinSizeRel" library), (installed "Win32" "MinSizeRel" library).
  split; [apply run_after, plain_installs|]. split; [apply run_after, gather_runs|].
  split; [exact gathered_same|]. split; [exact the_package_packed|]. split; [exact setup_done|].
  split; [constructor; cbn; tauto|]. vm_compute. discriminate.
Qed.

Lemma setup_case : sound machine2 /\ pack nsis_root gathered_disk = Some the_package /\
  run (install_section the_package data_dir [85%Z]) machine2 = Returned tt /\
  (forall g x data, holds g -> look gathered_disk (nsis_root ++ g ++ [x]) = Some (File data) -> our_file (g ++ [x])) /\
  (forall s, our_file s \/ s = ["include"; "ansak"] \/ s = cmake_file \/ s = remover ->
     look machine2 (data_dir ++ s) = None /\ writable machine2 (data_dir ++ s) = true).
Proof.
  split; [exact machine2_sound|]. split; [exact the_package_packed|]. split; [exact setup_runs|]. split.
  - intros g x data G E. apply groups_holds in G.
    destruct (pack_in _ _ _ the_package_packed) as (_ & _ & C).
    assert (K : carried the_package (g ++ [x]) data) by (apply C; split; [right; exists g, x; now split|exact E]).
    destruct K as (g' & fs & y & I & J & Q). apply app_inj_tail in Q. destruct Q as (<- & <-).
    apply deletions_ours.
    assert (Z : forallb (fun e : group => forallb (fun f : string * list Z =>
        same (fst e ++ [fst f]) cmake_file || existsb (same (fst e ++ [fst f])) deletions) (snd e)) the_package = true)
      by (vm_compute; reflexivity).
    rewrite forallb_forall in Z. specialize (Z _ I). cbn [fst snd] in Z. rewrite forallb_forall in Z. specialize (Z _ J).
    cbn [fst] in Z. apply orb_true_iff in Z. destruct Z as [Z|Z].
    + apply same_true in Z. apply (app_inj_tail g [] x "FindANSAK.cmake") in Z. destruct Z as (-> & _). cbn in G. clear - G.
      repeat (destruct G as [G|G]; [discriminate|]). destruct G.
    + apply existsb_exists in Z. destruct Z as (q & Q & Z). apply same_true in Z. rewrite Z. exact Q.
  - intros s O. split; [|reflexivity].
    assert (Z : forallb (fun s => match look machine2 (data_dir ++ s) with None => true | Some _ => false end)
        (["include"; "ansak"] :: cmake_file :: remover :: deletions) = true) by (vm_compute; reflexivity).
    rewrite forallb_forall in Z.
    assert (I : In s (["include"; "ansak"] :: cmake_file :: remover :: deletions)).
    { destruct O as [O|[->|[->| ->]]]; [|now left|right; now left|right; right; now left].
      right; right; right. apply deletions_ours. exact O. }
    specialize (Z _ I). cbv beta in Z. destruct (look machine2 (data_dir ++ s)); [discriminate|reflexivity].
Qed.

Theorem cmake_gone_then : forall inst d data, look d (inst ++ ["include"; "ansak"]) = Some Dir ->
  (forall x, look d (inst ++ ["include"; "ansak"; x]) <> None ->
     In x headers /\ (exists data, look d (inst ++ ["include"; "ansak"; x]) = Some (File data)) /\
     writable d (inst ++ ["include"; "ansak"; x]) = true) ->
  writable d (inst ++ ["include"; "ansak"]) = true ->
  look d (inst ++ cmake_file) = Some (File data) -> writable d (inst ++ cmake_file) = true ->
  look (uninstall_section inst d) (inst ++ ["include"; "ansak"]) = None /\
  look (uninstall_section inst d) (inst ++ cmake_file) = None.
Proof.
  intros inst d data D A W C V. apply (cmake_gone inst d data); try assumption.
  intros x X. destruct (A x X) as (H & (c & E) & Q). split; [assumption|]. unfold deletable. now rewrite E.
Qed.

Theorem empty_dir : forall d p st m, stack m = Place p :: st ->
  (forall e, In e (searches m) -> fst e < counter m) ->
  exists m' t, call d m = Some m' /\ stack m' = Text t :: st /\ (t = "1" \/ t = "0") /\ (t = "1" <-> vacant d p) /\
    r0 m' = r0 m /\ r1 m' = r1 m /\ errors m' = false /\ searches m' = searches m.
Proof.
  intros d p st m S O. destruct (is_empty_dir d p st m S (fun k x I => O (k, x) I)) as (m' & C & (t & T & U & V) & A & B & E & F & _).
  now exists m', t.
Qed.

(** lib and the rest of the directories are never removed. *)
Theorem directories_stay : forall inst d s, look d (inst ++ s) = Some Dir -> s <> ["include"; "ansak"] ->
  look (uninstall_section inst d) (inst ++ s) = Some Dir.
Proof.
  intros inst d s D N. destruct (uninstaller_keeps inst d) as (_ & _ & K). apply K; [assumption|].
  intro E. apply app_inv_head in E. contradiction.
Qed.
