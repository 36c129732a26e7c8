(* C121: several targets in one run of make.py *)
From Coq Require Import ZArith List Bool String Ascii.
From Verif.Model Require Import Make Targets.
From Verif.Spec Require Import Install.
From Verif.Proof Require Import InstallCase Targets TargetsCase.
Import ListNotations.
Open Scope string_scope.
Open Scope list_scope.

(* Full statement: whatever the targets, when install begins everything it copies has been built.
   Missing: scrub deletes what was built and leaves [done_] as it is, so nothing is built again
   (C121_scrubbed_partial, C121_refuted).  The other targets are taken to leave what is built there. *)
Theorem C121_built_partial : forall prefix here nsis package build other,
  (forall d d', build d = (Returned tt, d') -> all_built here d') ->
  (forall t done d done' d', remembers here done d ->
     other t done d = (Returned done', d') -> remembers here done' d') ->
  forall raw a b d done1 d1 done2 d2,
  ~ In "help" raw -> ~ In "scrub" raw -> valid_order raw = a ++ "install" :: b ->
  do_targets prefix here nsis package build other [] a d = (Returned done1, d1) ->
  ensure build done1 d1 = (Returned done2, d2) -> all_built here d2.
Proof. exact install_finds. Qed.
Print Assumptions C121_built_partial.

(* make.py all scrub install cannot succeed, unless scrub could not delete *)
Theorem C121_scrubbed_partial : forall prefix here nsis package build other d d1,
  sound d1 -> build d = (Returned tt, d1) ->
  (forall e, In e (entries d1) -> below (here ++ ["build"]) (fst e) = true -> writable d1 (fst e) = true) ->
  forall done d', do_targets prefix here nsis package build other [] ["all"; "scrub"; "install"] d <> (Returned done, d').
Proof. exact scrubbed_install. Qed.
Print Assumptions C121_scrubbed_partial.

Theorem C121_refuted : exists (build : io unit) d d' e,
  (forall d d', build d = (Returned tt, d') -> all_built src d') /\ sound d /\
  do_targets data_dir src true "p" build no_other [] (valid_order ["all"; "scrub"; "install"]) d = (Raised e, d') /\
  (exists done d'', do_targets data_dir src true "p" build no_other [] (valid_order ["scrub"; "install"]) d = (Returned done, d'')) /\
  (exists done d'', do_targets data_dir src true "p" build no_other [] (valid_order ["all"; "install"]) d = (Returned done, d'')).
Proof. exact scrubbed. Qed.
Print Assumptions C121_refuted.

Example C121_case : (forall d d', build_src d = (Returned tt, d') -> all_built src d') /\
  (forall t done d done' d', remembers src done d ->
     no_other t done d = (Returned done', d') -> remembers src done' d') /\
  result ["install"; "clean"; "all"; "uninstall"] = Returned ["all"; "all"] /\ result ["all"; "scrub"; "install"] = Raised NotFound /\
  look (afterwards ["clean"; "install"]) (data_dir ++ installed "x64" "Debug" library) = Some (File [76; 64; 2]%Z).
Proof. split; [exact build_src_builds|]. split; [exact no_other_keeps|]. vm_compute. repeat split. Qed.
