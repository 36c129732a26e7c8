(** Disks on which the recipes of /repo/Makefile are followed. *)
From Coq Require Import ZArith List Bool String Ascii.
From Verif Require Import Model.Make Model.Unix Spec.Install Spec.Unix.
From Verif Require Import Proof.InstallCase Proof.UnixDone Proof.UnixUndo Proof.UnixRest.
Import ListNotations.
Open Scope string_scope.
Open Scope list_scope.

Definition me : path := ["home"; "me"].
Definition sources : path := me ++ ["src"].
Definition local : path := me ++ ["local"].

Definition checkout : list (path * node) :=
  [(["home"], Dir); (me, Dir); (sources, Dir); (sources ++ [".git"], Dir); (sources ++ ["Makefile"], File [77%Z]);
   (sources ++ ["config.make"], File [67%Z]); (sources ++ ["interface"], Dir)] ++
  map (fun h => (sources ++ ["interface"; h], File [72%Z])) headers.

Definition built : list (path * node) :=
  [(sources ++ ["build"], Dir); (sources ++ ["build"; "libansakString.a"], File [65%Z]);
   (sources ++ ["build"; "CMakeFiles"], Dir); (sources ++ ["build"; "CMakeFiles"; "x"], File [])].

(** Only what is at home may be written, but by root. *)
Definition mine (p : path) : bool := same me (firstn 2 p).

Definition box (more : list (path * node)) : disk := {| entries := checkout ++ more; writable := mine |}.

Definition with_usr : disk := box (built ++ [(["usr"], Dir)]).
Definition with_home : disk := box built.
Definition with_local : disk := box (built ++ [(local, Dir); (me ++ ["lib"], Dir)]).

Lemma usr_sound : sound with_usr.
Proof. apply parents_sound. vm_compute. reflexivity. Qed.
Lemma home_sound : sound with_home.
Proof. apply parents_sound. vm_compute. reflexivity. Qed.
Lemma local_sound : sound with_local.
Proof. apply parents_sound. vm_compute. reflexivity. Qed.

Definition to_usr : io unit := make_install true ["usr"] sources false.
Definition from_usr : io unit := make_uninstall true ["usr"] me.
Definition to_home : io unit := make_install false me sources false.
Definition from_home : io unit := make_uninstall false me me.
Definition to_local : io unit := make_install false local sources false.
Definition from_local : io unit := make_uninstall false local me.

Lemma usr_installs : run to_usr with_usr = Returned tt.
Proof. vm_compute. reflexivity. Qed.
Lemma usr_refused : exists e, run (make_install false ["usr"] sources false) with_usr = Raised e.
Proof. eexists. vm_compute. reflexivity. Qed.
Lemma home_installs : run to_home with_home = Returned tt.
Proof. vm_compute. reflexivity. Qed.
Lemma local_installs : run to_local with_local = Returned tt.
Proof. vm_compute. reflexivity. Qed.
Lemma usr_uninstalls : run from_usr (after to_usr with_usr) = Returned tt.
Proof. vm_compute. reflexivity. Qed.

(** The directory lib of the user is gone, though the prefix is another. *)
Lemma home_lib_lost : exists sudo prefix home d d', sound d /\ prefix <> home /\
  make_uninstall sudo prefix home d = (Returned tt, d') /\
  look d (home ++ ["lib"]) = Some Dir /\ look d' (home ++ ["lib"]) = None.
Proof.
  pose (d := box (built ++ [(local, Dir); (me ++ ["lib"], Dir); (me ++ ["include"], Dir);
    (local ++ ["include"], Dir); (local ++ ["include"; "ansak"], Dir); (local ++ ["lib"], Dir);
    (local ++ ["lib"; "libansakString.a"], File [65%Z])] ++
    map (fun h => (local ++ ["include"; "ansak"; h], File [72%Z])) headers)).
  exists false, local, me, d, (after from_local d). split; [apply parents_sound; vm_compute; reflexivity|].
  split; [discriminate|]. split; [vm_compute; reflexivity|]. split; vm_compute; reflexivity.
Qed.

(** A header of the three that is not there: the library stays. *)
Lemma library_stays : exists sudo prefix home d r d', sound d /\
  make_uninstall sudo prefix home d = (r, d') /\
  look d (prefix ++ archive_file) <> None /\ look d' (prefix ++ archive_file) = look d (prefix ++ archive_file).
Proof.
  pose (d := {| entries := [(["usr"], Dir); (["usr"; "include"], Dir); (["usr"; "include"; "ansak"], Dir);
    (["usr"; "include"; "ansak"; "string.hxx"], File [72%Z]); (["usr"; "lib"], Dir);
    (["usr"; "lib"; "libansakString.a"], File [65%Z])]; writable := mine |}).
  exists true, ["usr"], me, d. eexists. exists (after from_usr d). split; [apply parents_sound; vm_compute; reflexivity|].
  split; [vm_compute; reflexivity|]. split; vm_compute; [discriminate|reflexivity].
Qed.

(** include and lib, made by the installation, stay. *)
Lemma usr_remains : exists sudo prefix here home config d d1 d2 p, sound d /\
  make_install sudo prefix here config d = (Returned tt, d1) /\
  make_uninstall sudo prefix home d1 = (Returned tt, d2) /\ look d p = None /\ look d2 p = Some Dir.
Proof.
  exists true, ["usr"], sources, me, false, with_usr, (after to_usr with_usr),
    (after from_usr (after to_usr with_usr)), ["usr"; "lib"].
  split; [apply usr_sound|]. split; [apply run_after, usr_installs|]. split; [apply run_after, usr_uninstalls|].
  split; vm_compute; reflexivity.
Qed.

(** The sources are gone. *)
Lemma sources_lost : exists here d d1 d2, sound d /\
  make_scrub here d = (Returned tt, d1) /\ make_clean here d1 = (Returned tt, d2) /\
  look d (here ++ ["interface"; "string.hxx"]) <> None /\ look d2 (here ++ ["interface"; "string.hxx"]) = None.
Proof.
  exists sources, with_home, (after (make_scrub sources) with_home),
    (after (make_clean sources) (after (make_scrub sources) with_home)).
  split; [apply home_sound|]. split; [apply run_after; vm_compute; reflexivity|].
  split; [apply run_after; vm_compute; reflexivity|]. split; vm_compute; [discriminate|reflexivity].
Qed.

(** What is hidden in build stays. *)
Lemma hidden_stays : exists here d d', sound d /\ look d (here ++ ["build"]) = Some Dir /\
  make_clean here d = (Returned tt, d') /\ exists x, look d' (here ++ ["build"; x]) <> None.
Proof.
  pose (d := box (built ++ [(sources ++ ["build"; ".cmake"], Dir)])).
  exists sources, d, (after (make_clean sources) d).
  split; [apply parents_sound; vm_compute; reflexivity|]. split; [reflexivity|].
  split; [apply run_after; vm_compute; reflexivity|]. exists ".cmake". vm_compute. discriminate.
Qed.

Lemma home_headers : forall h, look with_home (sources ++ ["interface"; h]) <> None -> In h headers.
Proof.
  intros h N. destruct (look with_home (sources ++ ["interface"; h])) as [n|] eqn:E; [|contradiction].
  unfold look in E. destruct (sources ++ ["interface"; h]) as [|a l] eqn:G; [discriminate|].
  apply InstallFacts.find_in_in in E. rewrite <- G in E. cbn in E.
  repeat (destruct E as [E|E]; [injection E as E; try discriminate; subst; cbn; auto|]). destruct E.
Qed.

Lemma home_case : sound with_home /\ run to_home with_home = Returned tt /\
  (forall h, In h headers -> exists data, look with_home (sources ++ ["interface"; h]) = Some (File data)) /\
  (forall h, look with_home (sources ++ ["interface"; h]) <> None -> In h headers) /\
  look with_home me = Some Dir /\ look with_home (me ++ ["include"]) = None /\
  look with_home (me ++ ["lib"]) = None /\ run from_home (after to_home with_home) = Returned tt /\
  look (after to_home with_home) (me ++ ["lib"]) = Some Dir /\
  look (after from_home (after to_home with_home)) (me ++ ["lib"]) = None.
Proof.
  split; [exact home_sound|]. split; [exact home_installs|]. split; [|split; [exact home_headers|]].
  - intros h I. cbn in I. repeat (destruct I as [<-|I]; [eexists; vm_compute; reflexivity|]). destruct I.
  - vm_compute. repeat split.
Qed.
