(** Cases for several targets in one run. *)
From Coq Require Import ZArith List Bool String Ascii.
From Verif Require Import Model.Make Model.Targets Spec.Install.
From Verif Require Import Proof.InstallFacts Proof.InstallDone Proof.InstallUndo Proof.InstallRest Proof.InstallCase Proof.Targets.
Import ListNotations.
Open Scope string_scope.
Open Scope list_scope.

(** A build that leaves what is built in [src]. *)
Definition build_src : io unit := fun d => (Returned tt, disk_of []).

Definition no_other (t : string) (done : list string) : io (list string) := ret done.

Definition result (ts : list string) : outcome (list string) :=
  fst (do_targets data_dir src true "p" build_src no_other [] (valid_order ts) (disk_of [])).

Definition afterwards (ts : list string) : disk :=
  snd (do_targets data_dir src true "p" build_src no_other [] (valid_order ts) (disk_of [])).


Lemma src_built : all_built src (disk_of []).
Proof.
  intros t s K. destruct K;
    repeat match goal with H : In _ _ |- _ => cbn in H end;
    repeat match goal with H : _ \/ _ |- _ => destruct H end; try contradiction; subst;
    vm_compute; eexists; reflexivity.
Qed.

Lemma build_src_builds : forall d d', build_src d = (Returned tt, d') -> all_built src d'.
Proof. intros d d' H. injection H as <-. exact src_built. Qed.

Lemma no_other_keeps : forall t done d done' d', remembers src done d ->
  no_other t done d = (Returned done', d') -> remembers src done' d'.
Proof. intros t done d done' d' R H. injection H as <- <-. exact R. Qed.

Lemma scrubbed : exists (build : io unit) d d' e,
  (forall d d', build d = (Returned tt, d') -> all_built src d') /\ sound d /\
  do_targets data_dir src true "p" build no_other [] (valid_order ["all"; "scrub"; "install"]) d = (Raised e, d') /\
  (exists done d'', do_targets data_dir src true "p" build no_other [] (valid_order ["scrub"; "install"]) d = (Returned done, d'')) /\
  (exists done d'', do_targets data_dir src true "p" build no_other [] (valid_order ["all"; "install"]) d = (Returned done, d'')).
Proof.
  exists build_src, (disk_of []). eexists. exists NotFound.
  split; [exact build_src_builds|]. split; [exact sound_plain|].
  split; [vm_compute; reflexivity|]. split; eexists; eexists; vm_compute; reflexivity.
Qed.
