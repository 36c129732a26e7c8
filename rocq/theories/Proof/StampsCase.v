(** Cases for the time stamps. *)
From Coq Require Import ZArith List Bool String Ascii Lia.
From Verif Require Import Model.Make Model.Stamps Spec.Fresh.
From Verif Require Import Proof.InstallFacts Proof.Stamps Proof.StampsUnix.
Import ListNotations.
Open Scope string_scope.
Open Scope list_scope.

(** Every file that is needed, each with its own content, all old. *)
Fixpoint aged (n : Z) (ps : list path) : list source :=
  match ps with
  | [] => []
  | p :: ps => (p, ([n], 0%Z)) :: aged (n + 1)%Z ps
  end.

Definition checkout : list source :=
  aged 1 (needs ["configvars.py"] "16" Installer ++ [["packaging.cmake"]]).

Definition unix_checkout : list source :=
  aged 1 (needs ["packaging.cmake"] "16" Tests).

Lemma nodup_paths : forall l : list path,
  (fix go l := match l with [] => true | p :: l => negb (existsb (same p) l) && go l end) l = true -> NoDup l.
Proof.
  induction l as [|p l IH]; intro H; [constructor|]. apply andb_true_iff in H. destruct H as (H1 & H2).
  constructor; [|now apply IH]. intro K. apply negb_true_iff in H1.
  assert (existsb (same p) l = true) by (apply existsb_exists; exists p; split; [assumption|apply same_refl]).
  congruence.
Qed.

Lemma checkout_distinct : NoDup (map fst checkout).
Proof. apply nodup_paths. vm_compute. reflexivity. Qed.

Lemma unix_checkout_distinct : NoDup (map fst unix_checkout).
Proof. apply nodup_paths. vm_compute. reflexivity. Qed.

Lemma checkout_old : forall f, In f checkout -> (snd (snd f) <= 0)%Z.
Proof.
  intros f H. assert (K : forallb (fun f : source => Z.leb (snd (snd f)) 0) checkout = true) by (vm_compute; reflexivity).
  rewrite forallb_forall in K. apply Z.leb_le, (K f H).
Qed.

Definition works : product -> tools := fun _ => Work.
Definition fails : product -> tools := fun _ => Fail (fun _ => None).

(** A file that is needed is removed, and nothing is made again. *)
Lemma deleted_unseen : exists l t0 es p,
  NoDup (map fst l) /\ In p (needs ["configvars.py"] "16" Libraries) /\
  let (ok, w) := run Libraries works (history (start l t0) es) in
  ok = true /\ current w p = None /\ made w Libraries p <> None.
Proof.
  exists checkout, 0%Z, [Run Libraries works; Delete ["source"; "string.cxx"]], ["source"; "string.cxx"].
  split; [exact checkout_distinct|]. split; [cbv; tauto|]. vm_compute. repeat split; discriminate.
Qed.

(** A file is put back as it was, with the stamp it had. *)
Lemma restored_unseen : exists l t0 es p,
  NoDup (map fst l) /\ In p (needs ["configvars.py"] "16" Libraries) /\
  let (ok, w) := run Libraries works (history (start l t0) es) in
  ok = true /\ current w p = Some [7]%Z /\ made w Libraries p <> current w p.
Proof.
  exists checkout, 0%Z, [Run Libraries works; Restore ["source"; "string.cxx"] [7]%Z 0%Z], ["source"; "string.cxx"].
  split; [exact checkout_distinct|]. split; [cbv; tauto|]. vm_compute. repeat split; discriminate.
Qed.

(** After a change a build fails, the change is undone by removing the file, and what the build left stays. *)
Lemma failed_unseen : exists l t0 es,
  NoDup (map fst l) /\ Forall (fun e => match e with Restore _ _ _ | Delete ["source"; "string.cxx"] => False | _ => True end) es /\
  let (ok, w) := run Libraries works (history (start l t0) es) in
  ok = true /\ current w ["source"; "string.cxx"] <> None /\
  made w Libraries ["source"; "string.cxx"] <> current w ["source"; "string.cxx"].
Proof.
  exists checkout, 0%Z, [Run Libraries works; Write ["source"; "extra.cxx"] [1]%Z; Run Libraries fails; Delete ["source"; "extra.cxx"]].
  split; [exact checkout_distinct|]. split; [repeat constructor|]. vm_compute. repeat split; discriminate.
Qed.

(** What the tests and the installer are made from besides. *)
Lemma data_unseen : exists l t0 es,
  NoDup (map fst l) /\ Forall only_written es /\ Forall always_works es /\
  In (test_data "16") (needs ["configvars.py"] "16" Tests) /\
  let (ok, w) := run Tests works (history (start l t0) es) in
  ok = true /\ current w (test_data "16") = Some [7]%Z /\ made w Tests (test_data "16") <> Some [7]%Z.
Proof.
  exists checkout, 0%Z, [Run Tests works; Write (test_data "16") [7]%Z].
  split; [exact checkout_distinct|]. split; [repeat constructor|]. split; [repeat constructor|].
  split; [cbv; tauto|]. vm_compute. repeat split; discriminate.
Qed.

Lemma framework_unseen : exists l t0 es,
  NoDup (map fst l) /\ Forall only_written es /\ Forall always_works es /\
  In framework (needs ["configvars.py"] "16" Tests) /\
  let (ok, w) := run Tests works (history (start l t0) es) in
  ok = true /\ current w framework = Some [7]%Z /\ made w Tests framework <> Some [7]%Z.
Proof.
  exists checkout, 0%Z, [Run Tests works; Write framework [7]%Z].
  split; [exact checkout_distinct|]. split; [repeat constructor|]. split; [repeat constructor|].
  split; [cbv; tauto|]. vm_compute. repeat split; discriminate.
Qed.

Lemma module_unseen : exists l t0 es,
  NoDup (map fst l) /\ Forall only_written es /\ Forall always_works es /\
  In cmake_module (needs ["configvars.py"] "16" Installer) /\
  let (ok, w) := run Installer works (history (start l t0) es) in
  ok = true /\ current w cmake_module = Some [7]%Z /\ made w Installer cmake_module <> Some [7]%Z.
Proof.
  exists checkout, 0%Z, [Run Installer works; Write cmake_module [7]%Z].
  split; [exact checkout_distinct|]. split; [repeat constructor|]. split; [repeat constructor|].
  split; [cbv; tauto|]. vm_compute. repeat split; discriminate.
Qed.

(** * The Makefile *)

Lemma cleaned_unseen : exists l t0 settings c,
  NoDup (map fst l) /\
  let u := unix_history (unix_start l t0)
    [Configure settings; MakeAll Work; MakeClean; MakeAll Work; UWrite ["source"; "string.cxx"] c; MakeAll Work] in
  current (tree u) ["source"; "string.cxx"] = Some c /\
  made (tree u) Libraries ["source"; "string.cxx"] <> Some c.
Proof.
  exists unix_checkout, 0%Z, [5]%Z, [7]%Z. split; [exact unix_checkout_distinct|]. vm_compute. split; [reflexivity|discriminate].
Qed.

(** A header that comes later, and then changes. *)
Lemma added_unseen : exists l t0 settings p c,
  NoDup (map fst l) /\ In p (needs ["config.make"] "16" Libraries) /\
  let u := unix_history (unix_start l t0)
    [Configure settings; UWrite p [1]%Z; MakeAll Work; UWrite p c; MakeAll Work] in
  current (tree u) p = Some c /\ made (tree u) Libraries p <> Some c.
Proof.
  exists (filter (fun f : source => negb (same (fst f) ["source"; "string_internal.hxx"])) unix_checkout),
    0%Z, [5]%Z, ["source"; "string_internal.hxx"], [7]%Z.
  split; [apply nodup_paths; vm_compute; reflexivity|]. split; [cbv; tauto|]. vm_compute. split; [reflexivity|discriminate].
Qed.

Lemma cleaned_case : let u := unix_history (unix_start unix_checkout 0%Z) [Configure [5]%Z; MakeAll Work] in
  (exists c s, file_at (tree u) ["config.make"] = Some (c, s) /\ (s <= now (tree u))%Z) /\
  current (tree u) ["source"; "string.cxx"] <> None.
Proof. cbn zeta. split; [|vm_compute; discriminate]. exists [5]%Z, 1%Z. split; [vm_compute; reflexivity|vm_compute; discriminate]. Qed.
