(* C117-C120: what the scripts make again, and when *)
From Coq Require Import ZArith List Bool String Ascii.
From Verif.Model Require Import Make Stamps.
From Verif.Spec Require Import Fresh.
From Verif.Proof Require Import Stamps StampsUnix StampsCase.
Import ListNotations.
Open Scope string_scope.
Open Scope list_scope.

(* ---- C117: the libraries, on Windows ----
   Full statement: whatever happened to the files before, after make.py all has ended well the libraries are
   made from the sources as they are.
   Missing: a file that was removed, a file that was put back with the time stamp it had, and the remains of a
   build that failed once nothing newer is left (C117_deleted_refuted, C117_restored_refuted,
   C117_failed_refuted). *)
Theorem C117_fresh_partial : forall l t0 es t v,
  NoDup (map fst l) -> Forall only_written es -> t Libraries = Work -> In v versions ->
  let (ok, w) := run Libraries t (history (start l t0) es) in
  ok = true /\ fresh w Libraries (needs ["configvars.py"] v Libraries).
Proof. exact libraries_fresh. Qed.
Print Assumptions C117_fresh_partial.

(* with deletions: what is still there is as it was used *)
Theorem C117_faithful_partial : forall l t0 es x v p c s,
  NoDup (map fst l) -> Forall always_works es -> In v versions ->
  In p (needs ["configvars.py"] v x) -> ~ In p [test_data v; framework; cmake_module] ->
  let (ok, w) := run x (fun _ => Work) (history (start l t0) es) in
  ok = true /\ (file_at w p = Some (c, s) -> made w x p = Some c).
Proof. exact make_py_faithful. Qed.
Print Assumptions C117_faithful_partial.

(* and nothing is made twice *)
Theorem C117_again_partial : forall l t0 es x t t',
  NoDup (map fst l) -> (forall f, In f l -> (snd (snd f) <= t0)%Z) -> Forall not_restored es ->
  let (ok, w) := run x t (history (start l t0) es) in
  ok = true -> run x t' w = (true, w).
Proof. exact run_again. Qed.
Print Assumptions C117_again_partial.

Theorem C117_deleted_refuted : exists l t0 es p,
  NoDup (map fst l) /\ In p (needs ["configvars.py"] "16" Libraries) /\
  let (ok, w) := run Libraries works (history (start l t0) es) in
  ok = true /\ current w p = None /\ made w Libraries p <> None.
Proof. exact deleted_unseen. Qed.
Print Assumptions C117_deleted_refuted.

Theorem C117_restored_refuted : exists l t0 es p,
  NoDup (map fst l) /\ In p (needs ["configvars.py"] "16" Libraries) /\
  let (ok, w) := run Libraries works (history (start l t0) es) in
  ok = true /\ current w p = Some [7]%Z /\ made w Libraries p <> current w p.
Proof. exact restored_unseen. Qed.
Print Assumptions C117_restored_refuted.

Theorem C117_failed_refuted : exists l t0 es,
  NoDup (map fst l) /\ Forall (fun e => match e with Restore _ _ _ | Delete ["source"; "string.cxx"] => False | _ => True end) es /\
  let (ok, w) := run Libraries works (history (start l t0) es) in
  ok = true /\ current w ["source"; "string.cxx"] <> None /\
  made w Libraries ["source"; "string.cxx"] <> current w ["source"; "string.cxx"].
Proof. exact failed_unseen. Qed.
Print Assumptions C117_failed_refuted.

Example C117_case : NoDup (map fst checkout) /\ (forall f, In f checkout -> (snd (snd f) <= 0)%Z) /\
  (let es := [Run Libraries works; Write ["interface"; "string.hxx"] [7]%Z; Run Libraries fails] in
   Forall only_written es /\ Forall not_restored es /\
   made (history (start checkout 0) es) Libraries ["interface"; "string.hxx"] = None /\
   made (snd (run Libraries works (history (start checkout 0) es))) Libraries ["interface"; "string.hxx"] = Some [7]%Z).
Proof.
  split; [exact checkout_distinct|]. split; [exact checkout_old|].
  split; [repeat constructor|]. split; [repeat constructor|]. vm_compute. repeat split.
Qed.

(* ---- C118: the tests, on Windows ----
   Full statement: if a file the tests need has changed since they passed, make.py test runs them again.
   Missing: the data the test of char_is_unicode is generated from and the test framework (make.py 120-128). *)
Theorem C118_fresh_partial : forall l t0 es t v p,
  NoDup (map fst l) -> Forall only_written es -> (forall y, In y (steps Tests) -> t y = Work) ->
  In v versions -> In p (needs ["configvars.py"] v Tests) -> ~ In p [test_data v; framework; cmake_module] ->
  let (ok, w) := run Tests t (history (start l t0) es) in
  ok = true /\ made w Tests p = current w p.
Proof. exact (fun l t0 es => make_py_fresh l t0 es Tests). Qed.
Print Assumptions C118_fresh_partial.

Theorem C118_data_refuted : exists l t0 es,
  NoDup (map fst l) /\ Forall only_written es /\ Forall always_works es /\
  In (test_data "16") (needs ["configvars.py"] "16" Tests) /\
  let (ok, w) := run Tests works (history (start l t0) es) in
  ok = true /\ current w (test_data "16") = Some [7]%Z /\ made w Tests (test_data "16") <> Some [7]%Z.
Proof. exact data_unseen. Qed.
Print Assumptions C118_data_refuted.

Theorem C118_framework_refuted : exists l t0 es,
  NoDup (map fst l) /\ Forall only_written es /\ Forall always_works es /\
  In framework (needs ["configvars.py"] "16" Tests) /\
  let (ok, w) := run Tests works (history (start l t0) es) in
  ok = true /\ current w framework = Some [7]%Z /\ made w Tests framework <> Some [7]%Z.
Proof. exact framework_unseen. Qed.
Print Assumptions C118_framework_refuted.

Example C118_case : let es := [Run Tests works; Write ["test"; "unit"; "string_test.cxx"] [7]%Z] in
  Forall only_written es /\
  made (history (start checkout 0) es) Tests ["test"; "unit"; "string_test.cxx"] <> Some [7]%Z /\
  made (snd (run Tests works (history (start checkout 0) es))) Tests ["test"; "unit"; "string_test.cxx"] = Some [7]%Z.
Proof. split; [repeat constructor|]. vm_compute. split; [discriminate|reflexivity]. Qed.

(* ---- C119: the installer ----
   Full statement: if a file in the installer, or one that went into something in it, has changed, make.py
   package makes it again.
   Missing: FindANSAK.cmake, which it holds (ansak-string.nsi 141), and what is missing in C118. *)
Theorem C119_fresh_partial : forall l t0 es t v p,
  NoDup (map fst l) -> Forall only_written es -> (forall y, In y (steps Installer) -> t y = Work) ->
  In v versions -> In p (needs ["configvars.py"] v Installer) -> ~ In p [test_data v; framework; cmake_module] ->
  let (ok, w) := run Installer t (history (start l t0) es) in
  ok = true /\ made w Installer p = current w p.
Proof. exact (fun l t0 es => make_py_fresh l t0 es Installer). Qed.
Print Assumptions C119_fresh_partial.

Theorem C119_module_refuted : exists l t0 es,
  NoDup (map fst l) /\ Forall only_written es /\ Forall always_works es /\
  In cmake_module (needs ["configvars.py"] "16" Installer) /\
  let (ok, w) := run Installer works (history (start l t0) es) in
  ok = true /\ current w cmake_module = Some [7]%Z /\ made w Installer cmake_module <> Some [7]%Z.
Proof. exact module_unseen. Qed.
Print Assumptions C119_module_refuted.

Example C119_case : let es := [Run Installer works; Write ["NSIS"; "ansak-string.nsi"] [7]%Z] in
  Forall only_written es /\
  made (history (start checkout 0) es) Installer ["NSIS"; "ansak-string.nsi"] <> Some [7]%Z /\
  made (snd (run Installer works (history (start checkout 0) es))) Installer ["NSIS"; "ansak-string.nsi"] = Some [7]%Z.
Proof. split; [repeat constructor|]. vm_compute. split; [discriminate|reflexivity]. Qed.

(* ---- C120: the library, with the Makefile ----
   Full statement: after make has ended well the library is made from the sources as they are.
   Missing: everything after make clean, which deletes the list of the sources (C120_cleaned_partial says how
   much), and files that came after configure (C120_added_refuted). *)
Theorem C120_fresh_partial : forall l t0 before settings es v p,
  NoDup (map fst l) -> Forall only_changed es ->
  let u0 := unix_history (unix_start l t0) before in
  current (tree u0) ["packaging.cmake"] <> None ->
  In v versions -> In p (needs ["config.make"] v Libraries) ->
  p = ["config.make"] \/ current (tree u0) p <> None ->
  let (ok, u) := make_libraries Work (unix_history (configure settings u0) es) in
  ok = true /\ made (tree u) Libraries p = current (tree u) p.
Proof. exact makefile_fresh. Qed.
Print Assumptions C120_fresh_partial.

(* after make clean and make, whatever is written or deleted, make leaves the library as it is *)
Theorem C120_cleaned_partial : forall u es,
  (exists c s, file_at (tree u) ["config.make"] = Some (c, s) /\ (s <= now (tree u))%Z) ->
  Forall settings_kept es ->
  let u1 := unix_history u [MakeClean; MakeAll Work] in
  (forall p, made (tree u1) Libraries p = current (tree u) p) /\
  (forall p, made (tree (unix_history u1 es)) Libraries p = current (tree u) p).
Proof. exact makefile_blind. Qed.
Print Assumptions C120_cleaned_partial.

Theorem C120_cleaned_refuted : exists l t0 settings c,
  NoDup (map fst l) /\
  let u := unix_history (unix_start l t0)
    [Configure settings; MakeAll Work; MakeClean; MakeAll Work; UWrite ["source"; "string.cxx"] c; MakeAll Work] in
  current (tree u) ["source"; "string.cxx"] = Some c /\
  made (tree u) Libraries ["source"; "string.cxx"] <> Some c.
Proof. exact cleaned_unseen. Qed.
Print Assumptions C120_cleaned_refuted.

Theorem C120_added_refuted : exists l t0 settings p c,
  NoDup (map fst l) /\ In p (needs ["config.make"] "16" Libraries) /\
  let u := unix_history (unix_start l t0)
    [Configure settings; UWrite p [1]%Z; MakeAll Work; UWrite p c; MakeAll Work] in
  current (tree u) p = Some c /\ made (tree u) Libraries p <> Some c.
Proof. exact added_unseen. Qed.
Print Assumptions C120_added_refuted.

(* make test always tests the sources as they are *)
Theorem C120_tests_partial : forall t u, fst (make_tests t u) = true ->
  forall p, made (tree (snd (make_tests t u))) Tests p = current (tree (snd (make_tests t u))) p.
Proof. exact makefile_tests. Qed.
Print Assumptions C120_tests_partial.

Example C120_case : let u0 := unix_start unix_checkout 0 in
  let es := [MakeAll Work; UWrite ["source"; "string.cxx"] [7]%Z] in
  Forall only_changed es /\ current (tree u0) ["packaging.cmake"] <> None /\
  made (tree (unix_history (configure [5]%Z u0) es)) Libraries ["source"; "string.cxx"] <> Some [7]%Z /\
  made (tree (snd (make_libraries Work (unix_history (configure [5]%Z u0) es)))) Libraries ["source"; "string.cxx"] = Some [7]%Z /\
  fst (make_tests works (unix_history (configure [5]%Z u0) es)) = true.
Proof. split; [repeat constructor|]. vm_compute. repeat split; discriminate. Qed.

Example C120_cleaned_case : let u := unix_history (unix_start unix_checkout 0%Z) [Configure [5]%Z; MakeAll Work] in
  (exists c s, file_at (tree u) ["config.make"] = Some (c, s) /\ (s <= now (tree u))%Z) /\
  current (tree u) ["source"; "string.cxx"] <> None.
Proof. exact cleaned_case. Qed.
